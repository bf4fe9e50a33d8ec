(* ErrSpec.v -- what the reports of a failed decoding / encoding may be: the IEs that contain the place of the error *)
From Verif Require Import Base GtlvModel DecEncModel.

(* [m'], [n']: a value of [n'] bytes inside of the [n] bytes at [m] (the lists are the memory from the address on) *)
Definition value_in (m : list N) (n : N) (m' : list N) (n' : N) : Prop := exists off, m' = dropN off m /\ off + n' <= n.

(* the [n] bytes at [m] have a broken TLV structure: at some offset there are too few bytes for a header, or the header cannot be
   decoded, or fewer bytes are left than it says *)
Definition tlv_error (c : cfg) (m : list N) (n : N) (e : errno) : Prop :=
  exists off left, off + left = n /\ left <> 0
    /\ ((left < cfg_min c /\ e = EBADMSG)
     \/ cfg_load c (dropN off m) left = Err e
     \/ (exists ti len h, cfg_load c (dropN off m) left = Ok (ti, len, h) /\ left < h + len /\ e = EBADMSG)).

Section Spec.
Context {V : Type}.

(* [dec_fails ies c o m n e ts]: decoding the [n] bytes at [m] to a struct (table [ies], TLV format [c], ordered iff [o]) can fail
   with [e], and [ts] are the tags of the IEs that lead to the place of the error, outermost first. *)
Inductive dec_fails : list (coding V) -> cfg -> bool -> list N -> N -> errno -> list tag_inst -> Prop :=
(* an IE of the table cannot be decoded *)
| df_leaf ies c o m n m' n' e h l ti : In (CLeaf h l) ies -> ti_match (h_ti h) ti = true -> value_in m n m' n' ->
    match lf_dec l with None => e = EIO | Some d => d m' n' = Err e end -> dec_fails ies c o m n e [ti]
| df_nested ies c o m n m' n' e h nc no inner ti ts : In (CNest h nc no inner) ies -> ti_match (h_ti h) ti = true -> value_in m n m' n' ->
    dec_fails inner (match nc with Some x => x | None => c end) (match no with OrdSame => o | OrdOrdered => true | OrdUnordered => false end) m' n' e ts ->
    dec_fails ies c o m n e (ti :: ts)
(* an IE that is not optional is missing *)
| df_missing ies c o m n d : In d ies -> h_pres (head d) = false -> match h_multi (head d) with Some (_, mand) => mand <> 0 | None => True end ->
    dec_fails ies c o m n (if o then ENOENT else EINVAL) [h_ti (head d)]
(* an IE occurs too often *)
| df_surplus ies c o m n d ti : In d ies -> ti_match (h_ti (head d)) ti = true -> dec_fails ies c o m n ENOTSUP [ti]
(* broken TLV structure *)
| df_tlv ies c o m n e ti : tlv_error c m n e -> dec_fails ies c o m n e [ti]
(* broken TLV structure right after an occurrence of a repeated IE, ordered decoding: not reported *)
| df_tlv_silent ies c m n e d : tlv_error c m n e -> In d ies -> h_multi (head d) <> None -> dec_fails ies c true m n e []
(* more table entries than the unordered decoder supports *)
| df_table ies c m n ti : 4096 < lenN ies -> dec_fails ies c false m n ENOTSUP [ti].

(* [enc_fails ies slots e ts]: the same for encoding a struct with the members [slots] *)
Inductive enc_fails : list (coding V) -> list (slot V) -> errno -> list tag_inst -> Prop :=
| ef_leaf ies slots e h l s f v room bs : In (CLeaf h l, s) (combine ies slots) -> In (VLeaf v) s -> lf_enc l = Some f -> f room v = (bs, Some e) ->
    enc_fails ies slots e [h_ti h]
| ef_nested ies slots e h nc no inner s sl ts : In (CNest h nc no inner, s) (combine ies slots) -> In (VStruct sl) s ->
    enc_fails inner sl e ts -> enc_fails ies slots e (h_ti h :: ts)
| ef_surplus ies slots d s mx mand : In (d, s) (combine ies slots) -> h_multi (head d) = Some (mx, mand) -> mx < lenN s ->
    enc_fails ies slots ENOTSUP [h_ti (head d)].
End Spec.
