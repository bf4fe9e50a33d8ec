(* PropertiesRep.v -- the property theorems C84 .. C86: decoding of any data with any table, in which several entries may have the
   same tag. Vocabulary: GtlvModel, DecEncModel, DecEncSpec, RepSpec. *)
From Verif Require Import Base GtlvModel GtlvSpec DecEncModel DecEncSpec DecEncProofs GtlvInst TestTables RepSpec RepProofs RepUnordProofs RepRtProofs.

Section Rep.
Context {V : Type}.
(* ---------------------------------------------------------------- C84 *)
(* any data is a sequence of whole IEs with a proper or a broken ending, in one way *)
Theorem C84_data_reads c d : cfg_ok c -> exists items en, reads c d items en /\ forall items' en', reads c d items' en' -> items' = items /\ en' = en.
Proof. exact (reads_total c d). Qed.
(* and the IEs, in this order, fill the struct *)
Theorem C84_ordered_decode_iff Tail c (ies : list (coding V)) d rest items en slots :
  cfg_ok c -> tail_closed Tail -> Tail rest ->
  Forall (all_leaves (leaf_local Tail)) ies -> Forall (all_cfgs cfg_ok) ies -> maxes_pos ies ->
  reads c d items en ->
  (gtlvs_decode c true (Some ies) (d ++ rest) (lenN d) = Ok slots <-> fills_ordered c rest en ies items slots).
Proof. exact (decode_ordered_any Tail c ies d rest items en slots). Qed.

(* ---------------------------------------------------------------- C85 *)
Theorem C85_unordered_decode_iff Tail c (ies : list (coding V)) d rest slots :
  cfg_ok c -> tail_closed Tail -> Tail rest ->
  Forall (all_leaves (leaf_local Tail)) ies -> Forall (all_cfgs cfg_ok) ies -> maxes_pos ies -> small_table ies ->
  (gtlvs_decode c false (Some ies) (d ++ rest) (lenN d) = Ok slots <->
   exists items, reads c d items Proper /\ fills_unordered c rest ies ies items slots).
Proof. exact (decode_unordered_any Tail c ies d rest slots). Qed.

(* ---------------------------------------------------------------- C86 *)
(* o = false: unordered, o = true: in table order *)
Theorem C86_wire_roundtrip Tail c o (ies : list (coding V)) slots bs buf cap rest :
  cfg_ok c -> tail_closed Tail -> Tail rest ->
  Forall (all_leaves (leaf_local Tail)) ies -> Forall (all_cfgs cfg_ok) ies -> all_tables table_any ies ->
  struct_repr Tail c ies slots bs -> all_tell o ies slots -> lenN buf + lenN bs <= cap ->
  gtlvs_encode c cap (Some ies) buf slots = EOk (buf ++ bs)
  /\ gtlvs_decode c o (Some ies) (bs ++ rest) (lenN bs) = Ok slots.
Proof. exact (gtlvs_rep_roundtrip Tail c o ies slots bs buf cap rest). Qed.
Theorem C86_encode_decode Tail c hs maxlen hdr tag_ok o (ies : list (coding V)) cap buf slots buf' rest :
  fixed_format c hs maxlen hdr tag_ok -> headers_repr c maxlen hdr tag_ok -> cfg_ok c -> tail_closed Tail -> Tail rest ->
  Forall (all_cfgs (fun x => x = c)) ies -> Forall (all_tags tag_ok) ies -> Forall (all_leaves (leaf_local Tail)) ies ->
  all_tables table_any ies -> struct_wf Tail ies slots -> all_tell o ies slots ->
  gtlvs_encode c cap (Some ies) buf slots = EOk buf' -> lenN buf' + hs <= cap -> lenN buf' <= maxlen ->
  exists bs, buf' = buf ++ bs /\ gtlvs_decode c o (Some ies) (bs ++ rest) (lenN bs) = Ok slots.
Proof. exact (encode_decode_any Tail c hs maxlen hdr tag_ok o ies cap buf slots buf' rest). Qed.
(* every struct that comes from unordered decoding is of this kind *)
Theorem C86_unordered_tells Tail c (ies : list (coding V)) d rest slots :
  cfg_ok c -> tail_closed Tail -> Tail rest -> Forall (all_leaves (leaf_local Tail)) ies -> Forall (all_cfgs cfg_ok) ies ->
  Forall all_unordered ies -> all_tables table_mild ies ->
  gtlvs_decode c false (Some ies) (d ++ rest) (lenN d) = Ok slots -> all_tell false ies slots.
Proof. exact (unordered_tells Tail c ies d rest slots). Qed.
End Rep.
Print Assumptions C84_data_reads.
Print Assumptions C84_ordered_decode_iff.
Print Assumptions C85_unordered_decode_iff.
Print Assumptions C86_wire_roundtrip.
Print Assumptions C86_encode_decode.
Print Assumptions C86_unordered_tells.

(* ---------------------------------------------------------------- examples *)
(* tag 1: up to two, and later up to three; between them an optional and a mandatory one *)
Definition rep_table : list (coding tv) := [CLeaf (hd_multi 1 2 0) l_u16; CLeaf (hd_o 2) l_u16; CLeaf (hd_m 3) l_u16; CLeaf (hd_multi 1 3 0) l_u16].
Example C84_C86_hypotheses :
  maxes_pos rep_table /\ small_table rep_table /\ all_tables table_any rep_table /\ all_tables table_mild rep_table /\ Forall all_unordered rep_table /\
  Forall (all_leaves (leaf_local AnyTail)) rep_table /\ Forall (all_cfgs cfg_ok) rep_table /\ ~ distinct_tags rep_table.
Proof.
  assert (M : maxes_pos rep_table) by (repeat constructor; vm_compute; discriminate). assert (S : small_table rep_table) by (vm_compute; discriminate).
  assert (T : table_any rep_table) by (split; assumption).
  split; [exact M|]. split; [exact S|]. split; [split; [exact T|repeat constructor]|]. split; [split; [split; [exact T|repeat constructor]|repeat constructor]|].
  split; [repeat constructor|]. split; [repeat constructor; apply l_u16_local|]. split; [repeat constructor|].
  intros D. specialize (D 0%nat 3%nat _ _ ltac:(lia) eq_refl eq_refl). vm_compute in D. discriminate.
Qed.
Notation u x := (VLeaf (TInt x)).
Example C84_example :
  (* the third IE 1 goes to the later member: the mandatory IE 3 is not looked for, the broken end not noticed *)
  gtlvs_decode t8l8v true (Some rep_table) [1;2;0;5;1;2;0;6;1;2;0;7;9] 13 = Ok [[u 5; u 6]; []; []; [u 7]]
  (* IE 3 between them *)
  /\ gtlvs_decode t8l8v true (Some rep_table) [1;2;0;5;3;2;0;9;1;2;0;6] 12 = Ok [[u 5]; []; [u 9]; [u 6]]
  (* a broken end is noticed if an IE is searched for and not found *)
  /\ gtlvs_decode t8l8v true (Some rep_table) [1;2;0;5;3;2;0;9;9] 9 = Err EBADMSG.
Proof. repeat split; vm_compute; reflexivity. Qed.
Example C85_example :
  gtlvs_decode t8l8v false (Some rep_table) [1;2;0;5;3;2;0;9;1;2;0;6;1;2;0;7] 16 = Ok [[u 5; u 6]; []; [u 9]; [u 7]]
  /\ gtlvs_decode t8l8v false (Some rep_table) [1;2;0;5;1;2;0;6;1;2;0;7] 12 = Err EINVAL
  /\ gtlvs_decode t8l8v false (Some rep_table) [3;2;0;9;1;2;0;1;1;2;0;2;1;2;0;3;1;2;0;4;1;2;0;5;1;2;0;6] 28 = Err ENOTSUP.
Proof. repeat split; vm_compute; reflexivity. Qed.
Definition rep_struct : list (slot tv) := [[u 5; u 6]; []; [u 9]; [u 7]].
Example C86_example :
  all_tell false rep_table rep_struct /\ all_tell true rep_table rep_struct /\ struct_wf AnyTail rep_table rep_struct /\
  gtlvs_encode t8l8v 64 (Some rep_table) [] rep_struct = EOk [1;2;0;5;1;2;0;6;3;2;0;9;1;2;0;7].
Proof.
  assert (A : struct_tells false rep_table rep_struct).
  { cbn [struct_tells rep_table rep_struct]. split; [intros L; vm_compute in L; discriminate|]. split.
    - intros _. left. repeat constructor; intros E; vm_compute in E; discriminate.
    - split; [intros L; vm_compute in L; discriminate|]. split; [|exact I]. intros _. left. constructor. }
  assert (B : Forall2 (fun d s => Forall (val_tells false d) s) rep_table rep_struct /\ Forall2 (fun d s => Forall (val_tells true d) s) rep_table rep_struct) by (split; repeat constructor).
  split; [split; [exact A|apply B]|]. split.
  - split; [|apply B]. cbn [struct_tells rep_table rep_struct] in *. destruct A as (A1 & A2 & A3 & A4 & _).
    split; [intros L; destruct (A1 L) as [X|(X & _)]; [left; exact X|discriminate]|]. split; [intros L; destruct (A2 L) as [X|(X & _)]; [left; exact X|discriminate]|].
    split; [intros L; destruct (A3 L) as [X|(X & _)]; [left; exact X|discriminate]|]. split; [intros L; destruct (A4 L) as [X|(X & _)]; [left; exact X|discriminate]|exact I].
  - split; [repeat constructor; try (apply l_u16_wf; lia); try (vm_compute; try discriminate; reflexivity)|vm_compute; reflexivity].
Qed.
(* In table order a decoded struct need not be of this kind: an unknown IE in between keeps IEs apart, and is not encoded. What is
   encoded from the decoded struct is then decoded to another struct. *)
Theorem C86_ordered_tells_refuted : exists (ies : list (coding tv)) d slots bs slots',
  all_tables table_mild ies /\ gtlvs_decode t8l8v true (Some ies) d (lenN d) = Ok slots /\ gtlvs_encode t8l8v 64 (Some ies) [] slots = EOk bs
  /\ gtlvs_decode t8l8v true (Some ies) bs (lenN bs) = Ok slots' /\ slots' <> slots.
Proof.
  exists [CLeaf (hd_multi 1 2 0) l_u16; CLeaf (hd_multi 1 3 0) l_u16], [1;2;0;5;77;0;1;2;0;6], [[u 5]; [u 6]], [1;2;0;5;1;2;0;6], [[u 5; u 6]; []].
  split; [split; [split; [split; [repeat constructor; vm_compute; discriminate|vm_compute; discriminate]|repeat constructor]|repeat constructor]|].
  split; [vm_compute; reflexivity|]. split; [vm_compute; reflexivity|]. split; [vm_compute; reflexivity|discriminate].
Qed.
Print Assumptions C86_ordered_tells_refuted.
