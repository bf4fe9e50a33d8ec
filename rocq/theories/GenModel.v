(* GenModel.v -- src/libosmo-gtlv/gtlv_gen.c: the generator of struct definitions and coding tables, and what a C compiler makes
   of its output. Simplifications: the output is a list of C declarations, not their text; white space, comments and includes
   are left out. The definitions are finite trees, an IE definition's address is its g_id. *)
From Coq Require Import String Ascii.
From Verif Require Import Base GtlvModel DecEncModel StrModel MemModel.
Local Open Scope string_scope.

Definition obind {A B} (x : option A) (f : A -> option B) : option B := match x with Some a => f a | None => None end.
Notation "x <-? a ;; b" := (obind a (fun x => b)) (at level 61, a at next level, right associativity).

(* ---------------------------------------------------------------- definitions *)

(* struct osmo_gtlv_gen_ie_o, gtlv_gen.h:50-99, without .ie; instance NULL = None *)
Record gmod := mkGMod { g_name : string; g_opt : bool; g_multi : N; g_mmand : N; g_inst : option string }.
(* struct osmo_gtlv_gen_ie, gtlv_gen.h:102-128, without .nested_ies; NULL = None; spec_ref is left out *)
Record gdef := mkGDef { g_id : N; g_dtype : option string; g_tag : option string; g_denc : option string }.
(* an osmo_gtlv_gen_ie_o with the osmo_gtlv_gen_ie it points to and its nested_ies *)
Inductive gie := GIe (m : gmod) (d : gdef) (nested : option (list gie)).
Definition gm (i : gie) : gmod := match i with GIe m _ _ => m end.
Definition gd (i : gie) : gdef := match i with GIe _ d _ => d end.
Definition gn (i : gie) : option (list gie) := match i with GIe _ _ n => n end.
(* struct osmo_gtlv_gen_cfg, 131-176: what the model needs *)
Record gcfg := mkGCfg { gc_proto : string; gc_msgt : string; gc_tagp : string; gc_dtp : string; gc_str : bool }.
(* struct osmo_gtlv_gen_msg, 180-183 *)
Definition gmsg : Type := string * list gie.

(* a NUL terminated copy in a buffer of n + 1 bytes *)
Definition trunc (n : nat) (s : string) : string := substring 0 n s.
Definition up (c : ascii) : ascii := if (N.leb 97 (N_of_ascii c) && N.leb (N_of_ascii c) 122)%bool then ascii_of_N (N_of_ascii c - 32) else c.
Fixpoint upper (s : string) : string := match s with EmptyString => EmptyString | String c s' => String (up c) (upper s') end.
(* osmo_str_toupper(), libosmocore: static buffer of 128 bytes *)
Definition toupper (s : string) : string := upper (trunc 127 s).
Definition orelse (a : option string) (b : string) : string := match a with Some s => s | None => b end.

(* ---------------------------------------------------------------- generated declarations *)
Record member := mkMemb { mb_type : string; mb_name : string; mb_arr : option N }.
Inductive hitem := HStruct (t : string) (ms : list member) | HUnion (t : string) (ms : list member).
(* an element of a struct osmo_gtlv_coding array. ce_obj, ce_sub, ce_memb: offsetof(obj, sub.memb); ce_kind: .nested_ies or the
   functions; ce_multi: count_max, count_mandatory, name of the count member; ce_flag: name of the presence flag *)
Record fns := mkFns { fn_dec : string; fn_enc : string; fn_str : option string }.
Record centry := mkCE {
  ce_tag : string; ce_inst : option string; ce_obj : string; ce_sub : option string; ce_memb : string;
  ce_kind : string + fns; ce_multi : option (N * N * string); ce_flag : option string
}.
Inductive citem := CExtern (f : fns) | CTable (t : string) (es : list centry) | CMsgDefs (l : list (string * string)).

Section Gen.
Variable cfg : gcfg.

(* seen(), gtlv_gen.c:46-64: None = exit(1); from_def NULL = None. The list is searched from the newest entry on; the order does
   not matter, as an entry is only added if there is none with this name. *)
Definition seenl : Type := list (string * option N).
Definition deq (a b : option N) : bool := match a, b with Some x, Some y => N.eqb x y | None, None => true | _, _ => false end.
Definition seen (str : string) (def : option N) (s : seenl) : option (bool * seenl) :=
  match find (fun e => String.eqb (fst e) str) s with
  | Some e => if deq def (snd e) then Some (true, s) else None
  | None => Some (false, (trunc 255 str, def) :: s)
  end.

(* "tag_name ? : ie_o->name" *)
Definition tagname (i : gie) : string := orelse (g_tag (gd i)) (g_name (gm i)).
(* "ie->dec_enc ? : (ie->tag_name ? : ie_o->name)" *)
Definition decenc (i : gie) : string := orelse (g_denc (gd i)) (tagname i).
(* decoded_type(), 75-86 *)
Definition dtype (i : gie) : string :=
  match g_dtype (gd i) with Some t => t | None => trunc 254 (gc_dtp cfg ++ tagname i) end.
Definition count_name (n : string) : string := n ++ "_count".
Definition flag_name (n : string) : string := n ++ "_present".

(* write_ie_members(), 97-110 *)
Definition ie_members (i : gie) : list member :=
  let m := gm i in
  (if g_opt m then [mkMemb "bool" (flag_name (g_name m)) None] else [])
  ++ (if N.eqb (g_multi m) 0 then [mkMemb (dtype i) (g_name m) None]
      else [mkMemb (dtype i) (g_name m) (Some (g_multi m)); mkMemb "unsigned int" (count_name (g_name m)) None]).
Definition members (ies : list gie) : list member := flat_map ie_members ies.

(* "for (ie_o = ies; ie_o->ie; ie_o++)" with the list of seen names *)
Section Walk.
Context {X : Type}.
Variable f : gie -> seenl -> option (list X * seenl).
Fixpoint walk (l : list gie) (s : seenl) : option (list X * seenl) :=
  match l with
  | [] => Some ([], s)
  | i :: l' => a <-? f i s ;; b <-? walk l' (snd a) ;; Some (fst a ++ fst b, snd b)%list
  end.
End Walk.

(* write_ie_auto_structs(), 113-147: one round of the loop *)
Fixpoint auto_structs (i : gie) (s : seenl) : option (list hitem * seenl) :=
  match i with
  | GIe m d None => Some ([], s)
  | GIe m d (Some ies) =>
    a <-? walk auto_structs ies s ;;
    b <-? seen (dtype (GIe m d (Some ies))) None (snd a) ;;
    Some ((fst a ++ if fst b then [] else [HStruct (dtype (GIe m d (Some ies))) (members ies)])%list, snd b)
  end.
(* write_auto_structs(), 151-158; also the loops of write_c(), 344-352 *)
Section Msgs.
Context {X : Type}.
Variable f : gie -> seenl -> option (list X * seenl).
Fixpoint walk_msgs (ms : list gmsg) (s : seenl) : option (list X * seenl) :=
  match ms with
  | [] => Some ([], s)
  | m :: ms' => a <-? walk f (snd m) s ;; b <-? walk_msgs ms' (snd a) ;; Some (fst a ++ fst b, snd b)%list
  end.
End Msgs.
Definition msg_struct (n : string) : string := "struct " ++ gc_proto cfg ++ "_msg_" ++ n.
Definition msg_union : string := "union " ++ gc_proto cfg ++ "_ies".
(* write_msg_union(), 174-196 *)
Definition msg_items (ms : list gmsg) : list hitem :=
  (map (fun m => HStruct (msg_struct (fst m)) (members (snd m))) ms
  ++ [HUnion msg_union (map (fun m => mkMemb (msg_struct (fst m)) (fst m) None) ms)])%list.
(* write_h(), 199-222 *)
Definition gen_h (ms : list gmsg) : option (list hitem) :=
  a <-? walk_msgs auto_structs ms [] ;; Some (fst a ++ msg_items ms)%list.

(* names of the functions, 241-248, 276-279 *)
Definition fns_of (i : gie) : fns :=
  mkFns (gc_proto cfg ++ "_dec_" ++ decenc i) (gc_proto cfg ++ "_enc_" ++ decenc i)
        (if gc_str cfg then Some (gc_proto cfg ++ "_enc_to_str_" ++ decenc i) else None).
(* write_extern_dec_enc(), 230-250: one round of the loop *)
Fixpoint externs (i : gie) (s : seenl) : option (list citem * seenl) :=
  match i with
  | GIe m d (Some ies) => walk externs ies s
  | GIe m d None =>
    b <-? seen (decenc (GIe m d None)) None s ;;
    Some ((if fst b then [] else [CExtern (fns_of (GIe m d None))]), snd b)
  end.
Definition ies_in (n : string) : string := "ies_in_" ++ n.
(* write_ies_array(), 258-293: one round of the loop *)
Definition ie_entry (obj : string) (sub : option string) (i : gie) : centry :=
  let m := gm i in
  mkCE (gc_tagp cfg ++ toupper (tagname i)) (g_inst m) obj sub (g_name m)
       (match gn i with Some _ => inl (ies_in (tagname i)) | None => inr (fns_of i) end)
       (if N.eqb (g_multi m) 0 then None else Some (g_multi m, g_mmand m, count_name (g_name m)))
       (if g_opt m then Some (flag_name (g_name m)) else None).
(* write_nested_ies_array(), 305-325: one round of the loop *)
Fixpoint nested_tables (i : gie) (s : seenl) : option (list citem * seenl) :=
  match i with
  | GIe m d None => Some ([], s)
  | GIe m d (Some ies) =>
    a <-? walk nested_tables ies s ;;
    b <-? seen (tagname (GIe m d (Some ies))) (Some (g_id d)) (snd a) ;;
    Some ((fst a ++ if fst b then []
                    else [CTable (ies_in (tagname (GIe m d (Some ies)))) (map (ie_entry (dtype (GIe m d (Some ies))) None) ies)])%list, snd b)
  end.
(* write_c(), 330-403 *)
Definition ies_in_msg (n : string) : string := "ies_in_msg_" ++ n.
Definition msg_table_item (m : gmsg) : citem := CTable (ies_in_msg (fst m)) (map (ie_entry msg_union (Some (fst m))) (snd m)).
Definition msg_defs_item (ms : list gmsg) : citem :=
  CMsgDefs (map (fun m => (gc_msgt cfg ++ toupper (fst m), ies_in_msg (fst m))) ms).
Definition gen_c (ms : list gmsg) : option (list citem) :=
  a <-? walk_msgs externs ms [] ;;
  b <-? walk_msgs nested_tables ms [] ;;
  Some (fst a ++ fst b ++ map msg_table_item ms ++ [msg_defs_item ms])%list.
End Gen.

(* ---------------------------------------------------------------- the C compiler *)
(* For this subset of C only: struct layout as in all common ABIs (each member at the next multiple of its alignment, the size
   rounded up to the largest alignment); a name that is undefined or defined twice is an error. Custom types, enumerators
   and instance expressions come from the user's headers. Names are not checked for being C identifiers. *)
Record finfo := mkFi { fi_ofs : N; fi_type : string; fi_elem : N; fi_n : option N }.
Record tyinfo := mkTy { ty_size : N; ty_align : N; ty_fields : list (string * finfo) }.
Definition tenv : Type := string -> option tyinfo.
Definition bindty (t : string) (x : tyinfo) (te : tenv) : tenv := fun t' => if String.eqb t t' then Some x else te t'.
Definition align_up (x a : N) : N := (x + a - 1) / a * a.
Definition fi_size (f : finfo) : N := match fi_n f with Some n => n * fi_elem f | None => fi_elem f end.
Definition has {A} (n : string) (l : list (string * A)) : bool := existsb (fun e => String.eqb (fst e) n) l.
Definition get {A} (n : string) (l : list (string * A)) : option A := option_map snd (find (fun e => String.eqb (fst e) n) l).

(* struct members: cur = first free offset, al = largest alignment so far *)
Fixpoint lay_struct (te : tenv) (ms : list member) (cur al : N) (fs : list (string * finfo)) : option tyinfo :=
  match ms with
  | [] => Some (mkTy (align_up cur al) al fs)
  | m :: ms' =>
    ty <-? te (mb_type m) ;;
    if has (mb_name m) fs then None
    else
      let f := mkFi (align_up cur (ty_align ty)) (mb_type m) (ty_size ty) (mb_arr m) in
      lay_struct te ms' (fi_ofs f + fi_size f) (N.max al (ty_align ty)) (fs ++ [(mb_name m, f)])%list
  end.
Fixpoint lay_union (te : tenv) (ms : list member) (sz al : N) (fs : list (string * finfo)) : option tyinfo :=
  match ms with
  | [] => Some (mkTy (align_up sz al) al fs)
  | m :: ms' =>
    ty <-? te (mb_type m) ;;
    if has (mb_name m) fs then None
    else
      let f := mkFi 0 (mb_type m) (ty_size ty) (mb_arr m) in
      lay_union te ms' (N.max sz (fi_size f)) (N.max al (ty_align ty)) (fs ++ [(mb_name m, f)])%list
  end.
Definition cc_hitem (te : tenv) (h : hitem) : option tenv :=
  let '(t, r) := match h with HStruct t ms => (t, lay_struct te ms 0 1 []) | HUnion t ms => (t, lay_union te ms 0 1 []) end in
  match te t with
  | Some _ => None
  | None => ty <-? r ;; Some (bindty t ty te)
  end.
Fixpoint cc_h (te : tenv) (hs : list hitem) : option tenv :=
  match hs with [] => Some te | h :: hs' => te' <-? cc_hitem te h ;; cc_h te' hs' end.

Section CC.
Variable te : tenv.                  (* the types of the header *)
Variable ce : string -> option N.    (* enumerators and constants *)

(* offsetof(obj, memb) / offsetof(obj, sub.memb): the member and its offset *)
Definition offset_of (obj : string) (sub : option string) (memb : string) : option (N * finfo) :=
  ty <-? te obj ;;
  match sub with
  | None => f <-? get memb (ty_fields ty) ;; Some (fi_ofs f, f)
  | Some s => g <-? get s (ty_fields ty) ;; ty' <-? te (fi_type g) ;; f <-? get memb (ty_fields ty') ;; Some ((fi_ofs g + fi_ofs f)%N, f)
  end.

Definition tables : Type := list (string * list (mcoding fns)).
(* one initializer; ex = declared functions, tb = tables defined so far. A type check of has_presence_flag etc. is not needed: all
   are plain numbers; dec_func etc. take void pointers. *)
Definition cc_entry (ex : list fns) (tb : tables) (e : centry) : option (mcoding fns) :=
  tag <-? ce (ce_tag e) ;;
  inst <-? match ce_inst e with None => Some None | Some x => v <-? ce x ;; Some (Some v) end ;;
  o <-? offset_of (ce_obj e) (ce_sub e) (ce_memb e) ;;
  multi <-? match ce_multi e with
            | None => Some None
            | Some (mx, mand, c) => co <-? offset_of (ce_obj e) (ce_sub e) c ;; _ <-? fi_n (snd o) ;; Some (Some (mx, mand, fst co))
            end ;;
  flag <-? match ce_flag e with
           | None => Some None
           | Some p => po <-? offset_of (ce_obj e) (ce_sub e) p ;; Some (Some (fst po))
           end ;;
  let ti := match inst with None => mkTi tag false 0 | Some v => mkTi tag true v end in
  let hd := mkHead ti (match flag with Some _ => true | None => false end)
                   (match multi with Some (mx, mand, _) => Some (mx, mand) | None => None end) in
  (* OSMO_MEMB_ARRAY_PITCH(), gtlv_dec_enc.h:71-72: size of an element; the member must be an array *)
  let h := mkMHead hd (fst o) (match multi with Some _ => fi_elem (snd o) | None => 0%N end)
                   (match flag with Some p => p | None => 0%N end) (match multi with Some (_, _, c) => c | None => 0%N end) in
  match ce_kind e with
  | inl t => ies <-? get t tb ;; Some (MNest h (fi_elem (snd o)) None OrdSame ies)
  | inr f => if existsb (fun x => String.eqb (fn_dec x) (fn_dec f)) ex then Some (MLeaf h f) else None
  end.
Fixpoint cc_entries (ex : list fns) (tb : tables) (es : list centry) : option (list (mcoding fns)) :=
  match es with
  | [] => Some []
  | e :: es' => d <-? cc_entry ex tb e ;; ds <-? cc_entries ex tb es' ;; Some (d :: ds)
  end.
(* msg_defs[]: designated initializers; the last one for an index counts *)
Fixpoint cc_defs (tb : tables) (l : list (string * string)) : option (list (N * list (mcoding fns))) :=
  match l with
  | [] => Some []
  | (e, t) :: l' => i <-? ce e ;; ds <-? get t tb ;; r <-? cc_defs tb l' ;; Some ((i, ds) :: r)
  end.
Fixpoint cc_c (ex : list fns) (tb : tables) (cs : list citem) : option (list (N * list (mcoding fns))) :=
  match cs with
  | [] => None (* msg_defs is not defined *)
  | CExtern f :: cs' => cc_c (f :: ex) tb cs'
  | CTable t es :: cs' => if has t tb then None else ds <-? cc_entries ex tb es ;; cc_c ex ((t, ds) :: tb) cs'
  | CMsgDefs l :: _ => cc_defs tb l
  end.
End CC.

(* ARRAY_SIZE(msg_defs) and the generated get_msg_coding(), gtlv_gen.c:363-377; a negative message type (enum or int) becomes a huge
   number in the comparison with a size_t. NULL = None *)
Definition defs_size (defs : list (N * list (mcoding fns))) : N := fold_right (fun d a => N.max (fst d + 1) a) 0%N defs.
Definition defs_get (defs : list (N * list (mcoding fns))) (t : N) : option (list (mcoding fns)) :=
  if N.leb (defs_size defs) t then None
  else option_map snd (find (fun d => N.eqb (fst d) t) (rev defs)).

(* The whole: definitions -> header -> types; definitions -> C file -> tables. *)
Record generated := mkGen { gr_types : tenv; gr_defs : list (N * list (mcoding fns)) }.
Definition gen_and_compile (cfg : gcfg) (te0 : tenv) (ce : string -> option N) (ms : list gmsg) : option generated :=
  hs <-? gen_h cfg ms ;;
  cs <-? gen_c cfg ms ;;
  te <-? cc_h te0 hs ;;
  defs <-? cc_c te ce [] [] cs ;;
  Some (mkGen te defs).

(* the generated _ies_decode(), _ies_encode(), _ies_encode_to_str(), gtlv_gen.c:379-403, on the memory [dm] of a union of all messages *)
Definition gen_union_size (cfg : gcfg) (r : generated) : N := match gr_types r (msg_union cfg) with Some u => ty_size u | None => 0%N end.
Section Wrappers.
Variable gcf : gcfg.
Variable r : generated.
Variable lk : fns -> mleaf.
Variable be : bool.
Definition gen_ies_decode (c : cfg) (ordered : bool) (t : N) (m : list N) (srclen : N) (dm : list N) : list N * res unit :=
  mgtlvs_decode lk be (gen_union_size gcf r) c ordered 0 (defs_get (gr_defs r) t) m srclen dm.
Definition gen_ies_encode (dm : list N) (t : N) (c : cfg) (cap : N) (buf : list N) : eres :=
  mgtlvs_encode lk be (gen_union_size gcf r) dm c cap 0 (defs_get (gr_defs r) t) buf.
Definition gen_ies_to_str (dm : list N) (t : N) (names : N -> list N) : strfn :=
  mgtlvs_to_str lk be (gen_union_size gcf r) dm names 0 (defs_get (gr_defs r) t).
End Wrappers.
