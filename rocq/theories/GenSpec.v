(* GenSpec.v -- what the definitions given to gtlv_gen mean, as documented in gtlv_gen.h:46-128, without reference to the generator *)
From Coq Require Import String Ascii.
From Verif Require Import Base GtlvModel DecEncModel MemModel MemSpec GenModel.
Local Open Scope string_scope.

(* The first [n] characters, in upper case. The names of the constants in the generated code have 127 characters of the tag or
   message name (osmo_str_toupper() has a buffer of that size); [toupper] below is [upcase 127], see C62_constant_names. *)
Definition upper_char (c : ascii) : ascii :=
  match String.index 0 (String c EmptyString) "abcdefghijklmnopqrstuvwxyz" with
  | Some n => match String.get n "ABCDEFGHIJKLMNOPQRSTUVWXYZ" with Some u => u | None => c end
  | None => c
  end.
Fixpoint upcase (n : nat) (s : string) : string :=
  match n, s with S n', String c s' => String (upper_char c) (upcase n' s') | _, _ => EmptyString end.

(* The C type of an IE: as given, or else the configured prefix and the tag name (the IE's name in the message if there is none), of
   which the generator keeps 254 characters. *)
Fixpoint keep (n : nat) (s : string) : string := match n, s with S n', String c s' => String c (keep n' s') | _, _ => EmptyString end.
Definition type_name (prefix : string) (i : gie) : string :=
  match i with
  | GIe _ (mkGDef _ (Some t) _ _) _ => t
  | GIe _ (mkGDef _ None (Some tag) _) _ => keep 254 (prefix ++ tag)
  | GIe (mkGMod n _ _ _ _) (mkGDef _ None None _) _ => keep 254 (prefix ++ n)
  end.

(* all IE definitions that occur in a definition, at any depth *)
Fixpoint occs (i : gie) : list gie := i :: match i with GIe _ _ (Some ies) => flat_map occs ies | GIe _ _ None => [] end.
Definition all_ies (ms : list gmsg) : list gie := flat_map (fun m => flat_map occs (snd m)) ms.

(* the functions of the IEs in a table, at any depth *)
Fixpoint all_functions {F} (d : mcoding F) : list F :=
  match d with MLeaf _ f => [f] | MNest _ _ _ _ ds => flat_map all_functions ds end.

Section Spec.
Variable cfg : gcfg.
Variable ce : string -> option N.
Variable te : tenv.
Context {V : Type}.
Variable la : fns -> leaf V.

(* names derived from the member name unless given; gtlv_gen.h:51-78, 103-118 *)
Definition name_of (i : gie) : string := g_name (gm i).
Definition tag_of (i : gie) : string := match g_tag (gd i) with Some t => t | None => name_of i end.
Definition funcs_of (i : gie) : fns :=
  let f := match g_denc (gd i) with Some f => f | None => tag_of i end in
  mkFns (gc_proto cfg ++ "_dec_" ++ f) (gc_proto cfg ++ "_enc_" ++ f) (if gc_str cfg then Some (gc_proto cfg ++ "_enc_to_str_" ++ f) else None).
(* the tag and instance of an IE, whether it has a presence flag, and its numbers of occurrences *)
Definition means_head (i : gie) : option chead :=
  tag <-? ce (gc_tagp cfg ++ toupper (tag_of i)) ;;
  ti <-? match g_inst (gm i) with None => Some (mkTi tag false 0) | Some x => v <-? ce x ;; Some (mkTi tag true v) end ;;
  Some (mkHead ti (g_opt (gm i)) (if N.eqb (g_multi (gm i)) 0 then None else Some (g_multi (gm i), g_mmand (gm i)))).
(* the coding table of a definition *)
Fixpoint means (i : gie) : option (coding V) :=
  match i with
  | GIe m d None => h <-? means_head i ;; Some (CLeaf h (la (funcs_of i)))
  | GIe m d (Some ies) =>
    h <-? means_head i ;;
    l <-? fold_right (fun j acc => c <-? means j ;; r <-? acc ;; Some (c :: r)) (Some []) ies ;;
    Some (CNest h None OrdSame l)
  end.
Definition means_list (ies : list gie) : option (list (coding V)) :=
  fold_right (fun j acc => c <-? means j ;; r <-? acc ;; Some (c :: r)) (Some []) ies.

(* member [n] of type [T]: its type, whether it is an array, its offset and the size of an element *)
Definition has_member (T n mt : string) (arr : option N) (ofs elem : N) : Prop :=
  exists ty t, te T = Some ty /\ get n (ty_fields ty) = Some (mkFi ofs mt elem arr) /\ te mt = Some t /\ ty_size t = elem.
(* The table entry [d] of IE [i] uses the members of struct [T] that are named after it: foo, foo[N] with foo_count, foo_present, and
   (unless it is a group) the functions named after it. *)
Definition placed1 (T : string) (i : gie) (h : mhead) (sz : option N) : Prop :=
  exists elem, (forall s, sz = Some s -> s = elem)
  /\ has_member T (name_of i) (dtype cfg i) (if N.eqb (g_multi (gm i)) 0 then None else Some (g_multi (gm i))) (mh_ofs h) elem
  /\ (g_multi (gm i) <> 0%N -> mh_pitch h = elem /\ has_member T (name_of i ++ "_count") "unsigned int" None (mh_cofs h) 4)
  /\ (g_opt (gm i) = true -> has_member T (name_of i ++ "_present") "bool" None (mh_pofs h) 1).
Fixpoint placed (T : string) (i : gie) (d : mcoding fns) : Prop :=
  match i, d with
  | GIe m g None, MLeaf h f => placed1 T i h None /\ f = funcs_of i
  | GIe m g (Some ies), MNest h sz _ _ ds =>
    placed1 T i h (Some sz)
    /\ (fix go (ies : list gie) (ds : list (mcoding fns)) : Prop :=
          match ies, ds with
          | [], [] => True
          | j :: ies', e :: ds' => placed (dtype cfg i) j e /\ go ies' ds'
          | _, _ => False
          end) ies ds
  | _, _ => False
  end.
End Spec.

(* ---------------------------------------------------------------- conditions on definitions *)
Section Conds.
Variable cfg : gcfg.
Variable ms : list gmsg.
(* g_id is an address: what is at the same address is the same *)
Definition ids_faithful : Prop :=
  forall i j, In i (all_ies ms) -> In j (all_ies ms) -> g_id (gd i) = g_id (gd j) -> gd i = gd j /\ gn i = gn j.
(* two groups with the same C type have the same members *)
Definition types_consistent : Prop :=
  forall i j a b, In i (all_ies ms) -> In j (all_ies ms) -> gn i = Some a -> gn j = Some b -> dtype cfg i = dtype cfg j ->
    members cfg a = members cfg b.
(* names of groups fit in the generator's buffers *)
Definition names_short : Prop :=
  forall i, In i (all_ies ms) -> gn i <> None -> (String.length (dtype cfg i) <= 255)%nat /\ (String.length (tag_of i) <= 255)%nat.
Definition groups_nonempty : Prop := forall i, In i (all_ies ms) -> gn i <> Some [].
(* the functions of a leaf IE work on the type that was declared for it *)
Definition leaf_types_ok (te : tenv) (lk : fns -> mleaf) : Prop :=
  forall i ty, In i (all_ies ms) -> gn i = None -> te (dtype cfg i) = Some ty -> ty_size ty = ml_size (lk (funcs_of cfg i)) /\ (0 < ty_size ty)%N.
(* bool and unsigned int as in MemModel.v; alignments are positive *)
Definition base_types_ok (te : tenv) : Prop :=
  (exists b, te "bool" = Some b /\ ty_size b = 1%N) /\ (exists u, te "unsigned int" = Some u /\ ty_size u = 4%N)
  /\ forall T ty, te T = Some ty -> (0 < ty_align ty)%N.
End Conds.

(* Definitions that the generator and the C compiler accept: every name means one thing. [te0], [ce]: the user's headers *)
Section Accept.
Variable cfg : gcfg.
Variable te0 : tenv.
Variable ce : string -> option N.
Variable ms : list gmsg.
Definition defined {A} (x : option A) : Prop := x <> None.
Definition well_named : Prop :=
  (* names fit in the generator's buffers *)
  names_short cfg ms
  /\ (forall i, In i (all_ies ms) -> gn i = None -> (String.length (match g_denc (gd i) with Some f => f | None => tag_of i end) <= 255)%nat)
  (* a name stands for one group; a type for one list of members *)
  /\ (forall i j, In i (all_ies ms) -> In j (all_ies ms) -> gn i <> None -> gn j <> None -> tag_of i = tag_of j -> g_id (gd i) = g_id (gd j))
  /\ types_consistent cfg ms
  (* no two members with the same name, counts and presence flags included *)
  /\ (forall i ies, In i (all_ies ms) -> gn i = Some ies -> NoDup (map mb_name (members cfg ies)))
  /\ Forall (fun m => NoDup (map mb_name (members cfg (snd m)))) ms /\ NoDup (map fst ms)
  (* the user's headers have the types of leaf IEs, but not the generated ones *)
  /\ defined (te0 "bool") /\ defined (te0 "unsigned int") /\ (forall i, In i (all_ies ms) -> gn i = None -> defined (te0 (dtype cfg i)))
  /\ (forall i, In i (all_ies ms) -> gn i <> None ->
        te0 (dtype cfg i) = None /\ dtype cfg i <> msg_union cfg /\ Forall (fun m => dtype cfg i <> msg_struct cfg (fst m) /\ tag_of i <> "msg_" ++ fst m) ms)
  /\ Forall (fun m => te0 (msg_struct cfg (fst m)) = None /\ msg_struct cfg (fst m) <> msg_union cfg) ms /\ te0 (msg_union cfg) = None
  (* tags, instances and message types *)
  /\ (forall i, In i (all_ies ms) -> defined (ce (gc_tagp cfg ++ toupper (tag_of i)))
        /\ forall x, g_inst (gm i) = Some x -> defined (ce x))
  /\ Forall (fun m => defined (ce (gc_msgt cfg ++ toupper (fst m)))) ms.
End Accept.
