(* ErrnoSpec.v -- which error code failing decoding yields: that of the first thing that is wrong *)
From Verif Require Import Base GtlvModel GtlvSpec DecEncModel DecEncSpec RepSpec IesModel IesSpec AcceptSpec.

(* ---------------------------------------------------------------- any table, any data, unordered *)
Section Any.
Context {V : Type}.
(* every IE that the table knows decodes, and none occurs too often *)
Definition placed (c : cfg) (rest : list N) (ies : list (coding V)) (items : list item) : Prop :=
  Forall (fun d => lenN (items_for d items) <= cap_of (head d) /\
                   Forall (fun it => exists v, gives c false rest d it v) (items_for d items)) ies.
(* the first thing that is wrong with the IEs [items], which are followed by the ending [en], and its error code *)
Inductive first_error (c : cfg) (rest : list N) (ies : list (coding V)) (items : list item) (en : ending) (e : errno) : Prop :=
| FE_surplus items1 it items2 d : items = items1 ++ it :: items2 -> placed c rest ies items1 -> In d ies -> has_tag d (fst it) ->
    lenN (items_for d items1) = cap_of (head d) -> e = ENOTSUP -> first_error c rest ies items en e
| FE_value items1 it items2 d : items = items1 ++ it :: items2 -> placed c rest ies items1 -> In d ies -> has_tag d (fst it) ->
    lenN (items_for d items1) < cap_of (head d) -> dec_coding d c false (snd it ++ rest) (lenN (snd it)) = Err e ->
    first_error c rest ies items en e
| FE_torn t : placed c rest ies items -> en = Broken e t -> first_error c rest ies items en e
| FE_missing : placed c rest ies items -> en = Proper -> Exists (fun d => lenN (items_for d items) < low_of (head d)) ies -> e = EINVAL ->
    first_error c rest ies items en e.
End Any.

(* ---------------------------------------------------------------- PFCP *)

(* a value that an IE decoder refuses: -ERANGE if a name is empty or too long, -EINVAL otherwise *)
Definition name_length_ok (n : list N) : bool := (1 <=? lenN n) && (lenN n <=? 254).
Definition ie_errno (k : kind) (v : list N) : errno :=
  match k, v with
  | KNetInst, _ => if name_length_ok v then EINVAL else ERANGE
  | KNodeId, 2 :: n => if name_length_ok n then EINVAL else ERANGE
  | _, _ => EINVAL
  end.

(* how often an IE may occur / must occur *)
Definition at_most (o : occ) : N := match o with Many _ => 32 | _ => 1 end.
Definition at_least (o : occ) : N := match o with Once => 1 | Optional => 0 | Many min => min end.

(* [d] is a sequence of IEs and then [tail] *)
Definition ie_seq_then (d : list N) (l : list (N * list N)) (tail : list N) : Prop :=
  d = concat (map ie_octets l) ++ tail /\ Forall (fun x => fst x < 65536 /\ lenN (snd x) < 65536) l.
(* octets that are not the start of a whole IE, but some *)
Definition torn (v : list N) : Prop :=
  v <> [] /\ (lenN v < 4 \/ exists a b x y w, v = a :: b :: x :: y :: w /\ lenN w < x * 256 + y).

Section Error.
Context (content_error : ie -> list N -> errno -> Prop).
(* nothing is wrong with these IEs as such: each value is acceptable, and none of them is one too many *)
Definition so_far_ok (l : list ie) (items : list (N * list N)) : Prop :=
  Forall (fun q => lenN (values_of (iei_of q) items) <= at_most (occ_of q) /\ Forall (content_ok q) (values_of (iei_of q) items)) l.
(* the first thing that is wrong: an IE that is one too many (-ENOTSUP); an IE with a wrong value (the code for that); the data
   ends within an IE (-EBADMSG); a mandatory IE is missing (-EINVAL) *)
Definition body_error_of (l : list ie) (d : list N) (e : errno) : Prop :=
  exists items tail, ie_seq_then d items tail /\ (tail = [] \/ torn tail) /\
    ((exists items1 x items2, items = items1 ++ x :: items2 /\ so_far_ok l items1 /\
        fold_right (fun q acc => (fst x = iei_of q /\
            (lenN (values_of (iei_of q) items1) = at_most (occ_of q) /\ e = ENOTSUP \/
             lenN (values_of (iei_of q) items1) < at_most (occ_of q) /\ content_error q (snd x) e)) \/ acc) False l)
     \/ so_far_ok l items /\ tail <> [] /\ e = EBADMSG
     \/ so_far_ok l items /\ tail = [] /\ e = EINVAL /\
        fold_right (fun q acc => lenN (values_of (iei_of q) items) < at_least (occ_of q) \/ acc) False l).
End Error.
Fixpoint content_error (p : ie) (v : list N) (e : errno) : Prop :=
  match p with
  | Ie _ _ k => ~ ie_accept k v /\ e = ie_errno k v
  | Grp _ _ l => body_error_of content_error l v e
  end.
Definition body_error : list ie -> list N -> errno -> Prop := body_error_of content_error.
