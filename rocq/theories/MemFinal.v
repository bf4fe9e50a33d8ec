(* MemFinal.v -- combinations of the memory refinement with the theorems about gtlvs_decode() / gtlvs_encode() *)
From Verif Require Import Base BaseProofs GtlvModel GtlvSpec DecEncModel DecEncSpec DecEncProofs DecOrdProofs DecCharProofs StrModel TestTables GtlvInst WfProofs GtlvProofs
  MemModel MemSpec MemProofs MemEncProofs MemTest.
Local Open Scope N_scope.

Section F.
Context {V K : Type}.
Variable lk : K -> mleaf.
Variable la : K -> leaf V.
Variable ls : K -> option (V -> strfn).
Variable ld : K -> list N -> V.
Variable be : bool.
Variable dsz : N.

Lemma mem_decode_safe Tail sz ies c o obj d rest dm :
  dsz < 2 ^ 32 -> (forall k, dec_ok lk la ld k) -> bytes_ok (d ++ rest) ->
  layout_ok lk sz ies -> lenN dm = dsz -> obj + sz <= dsz -> (exists l, bytes_at obj sz dm l /\ Forall (fun b => b = 0) l) ->
  cfg_ok c -> tail_closed Tail -> Tail rest -> Forall (all_cfgs cfg_ok) (map (erase la) ies) ->
  Forall (all_leaves (leaf_local Tail)) (map (erase la) ies) -> Forall (all_leaves (leaf_safe Tail)) (map (erase la) ies) ->
  all_tables maxes_pos (map (erase la) ies) ->
  exists dm' r, mgtlvs_decode lk be dsz c o obj (Some ies) (d ++ rest) (lenN d) dm = (dm', r) /\ is_ub r = false /\ only_changed obj sz dm dm'.
Proof.
  intros H1 H2 H3 H4 H5 H6 H7 H8 H9 H10 H11 H12 H13 H14.
  pose proof (decode_refines lk la ld be dsz H1 H2 sz ies c o obj (d ++ rest) (lenN d) dm H3 H4 H5 H6 H7) as H.
  pose proof (gtlvs_decode_safe Tail c o _ d rest H8 H9 H10 H12 H13 H11 H14) as HU.
  destruct (gtlvs_decode c o (Some (map (erase la) ies)) (d ++ rest) (lenN d)) as [s|e|u]; [| |discriminate].
  - destruct H as (dm' & E & HO & _). exists dm', (Ok tt). auto.
  - destruct H as (dm' & E & HO). exists dm', (Err e). auto.
Qed.

Lemma mem_only_values names sz ies c cap obj obj' buf slots dm dm' b n :
  dsz < 2 ^ 32 -> (forall k, enc_ok lk la ld k) -> (forall k, str_ok lk ls ld k) -> layout_ok lk sz ies ->
  lenN dm = dsz -> lenN dm' = dsz -> obj + sz <= dsz -> obj' + sz <= dsz ->
  struct_held lk ld be true ies obj dm slots -> struct_held lk ld be true ies obj' dm' slots ->
  mgtlvs_encode lk be dsz dm c cap obj (Some ies) buf = mgtlvs_encode lk be dsz dm' c cap obj' (Some ies) buf
  /\ mgtlvs_to_str lk be dsz dm names obj (Some ies) b n = mgtlvs_to_str lk be dsz dm' names obj' (Some ies) b n.
Proof.
  intros H1 H2 H3 H4 H5 H6 H7 H8 H9 H10. split.
  - rewrite (encode_refines lk ld be dsz H1 dm H5 la H2 sz ies c cap obj buf slots H4 H7 H9).
    rewrite (encode_refines lk ld be dsz H1 dm' H6 la H2 sz ies c cap obj' buf slots H4 H8 H10). reflexivity.
  - rewrite (to_str_refines lk ld be dsz H1 dm H5 ls names H3 sz ies obj slots b n H4 H7 H9).
    rewrite (to_str_refines lk ld be dsz H1 dm' H6 ls names H3 sz ies obj' slots b n H4 H8 H10). reflexivity.
Qed.

Lemma concat_of_Forall (R : val V -> list N -> Prop) (P : val V -> Prop) vs bs : (forall v b, R v b -> P v) -> concat_of R vs bs -> Forall P vs.
Proof.
  intros H (bss & HF & _). induction HF; constructor; eauto.
Qed.
Lemma val_repr_counts Tail (cd : coding V) : forall c v bs, val_repr Tail cd c v bs -> counts_ok cd v.
Proof.
  induction cd as [h l|h nc o ies IH] using coding_ind'; intros c [x|slots] bs; cbn [val_repr counts_ok]; auto.
  cbv zeta. revert slots bs. generalize (match nc with Some x => x | None => c end). intros c'.
  induction IH as [|d ies IHd IH IHl]; intros [|s slots] bs; auto.
  intros (b1 & b2 & _ & Hc & Hs & Hr). split; [exact Hc|]. split; [|eapply IHl; exact Hr].
  eapply concat_of_Forall; [|exact Hs]. cbv beta. intros v b (vb & Hv & _). eapply IHd; exact Hv.
Qed.
Lemma struct_repr_ok Tail c (ies : list (coding V)) : forall slots bs, struct_repr Tail c ies slots bs -> struct_ok ies slots.
Proof.
  induction ies as [|d ies IH]; intros [|s slots] bs; cbn [struct_repr]; try easy; [constructor|].
  intros (b1 & b2 & _ & Hc & Hs & Hr). constructor; [|eapply IH; exact Hr]. split; [exact Hc|].
  eapply concat_of_Forall; [|exact Hs]. cbv beta. intros v b (vb & Hv & _). eapply val_repr_counts; exact Hv.
Qed.

Lemma mem_roundtrip Tail sz ies c o cap obj obj' buf slots bs rest dm dm2 :
  dsz < 2 ^ 32 -> (forall k, dec_ok lk la ld k) -> (forall k, enc_ok lk la ld k) -> layout_ok lk sz ies ->
  cfg_ok c -> tail_closed Tail -> Tail rest -> bytes_ok (bs ++ rest) -> Forall (all_cfgs cfg_ok) (map (erase la) ies) ->
  Forall (all_leaves (leaf_local Tail)) (map (erase la) ies) -> all_tables table_ok (map (erase la) ies) ->
  lenN dm = dsz -> obj + sz <= dsz -> struct_held lk ld be true ies obj dm slots ->
  lenN dm2 = dsz -> obj' + sz <= dsz -> (exists l, bytes_at obj' sz dm2 l /\ Forall (fun b => b = 0) l) ->
  struct_repr Tail c (map (erase la) ies) slots bs -> lenN buf + lenN bs <= cap ->
  mgtlvs_encode lk be dsz dm c cap obj (Some ies) buf = EOk (buf ++ bs)
  /\ exists dm', mgtlvs_decode lk be dsz c o obj' (Some ies) (bs ++ rest) (lenN bs) dm2 = (dm', Ok tt)
       /\ only_changed obj' sz dm2 dm' /\ struct_held lk ld be true ies obj' dm' slots.
Proof.
  intros H1 H2 H3 H4 H5 H6 H7 H8 H9 H10 H11 H12 H13 H14 H15 H16 H17 H18 H19.
  destruct (gtlvs_repr_roundtrip Tail c o _ slots bs buf cap rest H5 H6 H7 H10 H9 H11 H18 H19) as [HE HD]. split.
  - rewrite (encode_refines lk ld be dsz H1 dm H12 la H3 sz ies c cap obj buf slots H4 H13 H14). exact HE.
  - pose proof (decode_refines lk la ld be dsz H1 H2 sz ies c o obj' (bs ++ rest) (lenN bs) dm2 H8 H4 H15 H16 H17) as H. rewrite HD in H.
    destruct H as (dm' & E & HO & HS). exists dm'. split; [exact E|]. split; [exact HO|]. apply (strict_struct lk la); [|exact HS].
    eapply struct_repr_ok; exact H18.
Qed.

Lemma mem_decoded_encodable sz ies c obj m len dm dm' c' cap buf names b n :
  dsz < 2 ^ 32 -> (forall k, dec_ok lk la ld k) -> (forall k, enc_ok lk la ld k) -> (forall k, str_ok lk ls ld k) -> bytes_ok m ->
  layout_ok lk sz ies -> lenN dm = dsz -> obj + sz <= dsz -> (exists l, bytes_at obj sz dm l /\ Forall (fun b => b = 0) l) ->
  Forall all_unordered (map (erase la) ies) -> all_tables small_table (map (erase la) ies) ->
  is_ub (gtlvs_decode c false (Some (map (erase la) ies)) m len) = false ->
  mgtlvs_decode lk be dsz c false obj (Some ies) m len dm = (dm', Ok tt) ->
  exists slots, gtlvs_decode c false (Some (map (erase la) ies)) m len = Ok slots
    /\ mgtlvs_encode lk be dsz dm' c' cap obj (Some ies) buf = gtlvs_encode c' cap (Some (map (erase la) ies)) buf slots
    /\ mgtlvs_to_str lk be dsz dm' names obj (Some ies) b n = gtlvs_to_str ls names (Some (map erase_str ies)) slots b n.
Proof.
  intros H1 H2 H3 H4 H5 H6 H7 H8 H9 H10 H11 HU HD.
  pose proof (decode_refines lk la ld be dsz H1 H2 sz ies c false obj m len dm H5 H6 H7 H8 H9) as H.
  destruct (gtlvs_decode c false (Some (map (erase la) ies)) m len) as [slots|e|u] eqn:E; [| |discriminate].
  - destruct H as (dm1 & E1 & HO & HS). rewrite HD in E1. injection E1 as <-. assert (HL' : lenN dm' = dsz) by (destruct HO; lia). exists slots. split; [reflexivity|].
    pose proof (strict_struct lk la ld be ies obj dm' slots (gtlvs_decode_counts c _ m len slots H10 H11 E) HS) as HS'. split.
    + apply (encode_refines lk ld be dsz H1 dm' HL' la H3 sz ies c' cap obj buf slots H6 H8 HS').
    + apply (to_str_refines lk ld be dsz H1 dm' HL' ls names H4 sz ies obj slots b n H6 H8 HS').
  - destruct H as (dm1 & E1 & _). rewrite HD in E1. discriminate.
Qed.
End F.

(* ---------------------------------------------------------------- GtlvInst.ex_table laid out in memory *)
Definition x_inner : list (mcoding tkind) := [MLeaf (mkMHead (hd_m 1) 0 0 0 0) KU16; MLeaf (mkMHead (hd_o 2) 8 0 4 0) KU16].
Definition x_table : list (mcoding tkind) :=
  [ MLeaf (mkMHead (hd_m 1) 0 0 0 0) KU16; MLeaf (mkMHead (hd_o 2) 8 0 4 0) KU16; MLeaf (mkMHead (hd_multi 3 4 1) 16 4 0 12) KU16;
    MNest (mkMHead (hd_o 4) 36 0 32 0) 12 None OrdSame x_inner ].
Definition x_decoded (be : bool) : list N := fst (mgtlvs_decode (t_mleaf be) be 48 t8l8v false 0 (Some x_table) ex_bytes (lenN ex_bytes) (repeat 0 48)).
Lemma x_erase : map (erase t_leaf) x_table = ex_table.
Proof. reflexivity. Qed.
Lemma x_layout be : layout_ok (t_mleaf be) 48 x_table.
Proof. apply layout_b_ok. destruct be; vm_compute; reflexivity. Qed.
Lemma x_zeroed : exists l, bytes_at 0 48 (repeat 0 48) l /\ Forall (fun b => b = 0) l.
Proof. exists (repeat 0 48). split; [apply peek_iff; vm_compute; reflexivity|]. apply Forall_forall. intros x Hx. exact (repeat_spec _ _ _ Hx). Qed.
Lemma x_held be : struct_held (t_mleaf be) (t_ld be) be true x_table 0 (x_decoded be) ex_struct.
Proof.
  apply (strict_struct _ t_leaf).
  { rewrite x_erase. apply (gtlvs_decode_counts t8l8v ex_table ex_bytes (lenN ex_bytes)); [repeat constructor; discriminate| |vm_compute; reflexivity].
    split; [vm_compute; discriminate|]. repeat constructor; vm_compute; discriminate. }
  pose proof (decode_refines (t_mleaf be) t_leaf (t_ld be) be 48 eq_refl (t_dec_ok be) 48 x_table t8l8v false 0 ex_bytes (lenN ex_bytes) (repeat 0 48)
    ltac:(repeat constructor) (x_layout be) eq_refl) as H.
  specialize (H ltac:(vm_compute; discriminate) x_zeroed). rewrite x_erase in H.
  assert (E0 : gtlvs_decode t8l8v false (Some ex_table) ex_bytes (lenN ex_bytes) = Ok ex_struct) by (vm_compute; reflexivity).
  rewrite E0 in H. destruct H as (dm' & E & _ & HS). unfold x_decoded. rewrite E. exact HS.
Qed.
Definition x_item (d : coding tv) (v : val tv) (b : list N) : Prop := exists vb, val_repr AnyTail d t8l8v v vb /\ tlv_repr t8l8v (h_ti (head d)) vb b.
Lemma x_leaf d t x : head d = hd_m t \/ head d = hd_o t \/ head d = hd_multi t 4 1 -> d = CLeaf (head d) l_u16 -> t < 256 -> x <= 32767 ->
  x_item d (VLeaf (TInt x)) ([t; 2] ++ be_put 2 x).
Proof.
  intros Hd Hl Ht Hx. exists (be_put 2 x). split.
  - rewrite Hl. cbn [val_repr]. apply l_u16_repr, Hx.
  - exists [t; 2]. split; [|reflexivity]. rewrite be_put_lenN. replace (h_ti (head d)) with (ti_of_tag t) by (destruct Hd as [-> | [-> | ->]]; reflexivity).
    apply (t8l8v_headers (ti_of_tag t)); [exists t; auto|vm_compute; discriminate].
Qed.
Lemma x_one d v b : x_item d v b -> concat_of (x_item d) [v] b.
Proof. intros H. exists [b]. split; [constructor; [exact H|constructor]|]. cbn [concat]. rewrite app_nil_r. reflexivity. Qed.
Lemma x_repr : struct_repr AnyTail t8l8v ex_table ex_struct ex_bytes.
Proof.
  exists [1;2;0;7], [3;2;0;8;3;2;0;9;4;8;1;2;0;10;2;2;0;11]. split; [reflexivity|]. split; [repeat split; vm_compute; intros; discriminate|].
  split; [apply x_one; apply (x_leaf _ 1 7); auto; vm_compute; try reflexivity; discriminate|].
  exists [], [3;2;0;8;3;2;0;9;4;8;1;2;0;10;2;2;0;11]. split; [reflexivity|]. split; [repeat split; vm_compute; intros; discriminate|].
  split; [exists []; split; constructor|].
  exists [3;2;0;8;3;2;0;9], [4;8;1;2;0;10;2;2;0;11]. split; [reflexivity|]. split; [repeat split; vm_compute; intros; discriminate|].
  split.
  { exists [[3;2;0;8]; [3;2;0;9]]. split; [|reflexivity]. constructor; [|constructor; [|constructor]].
    - apply (x_leaf (CLeaf (hd_multi 3 4 1) l_u16) 3 8); auto; vm_compute; try reflexivity; discriminate.
    - apply (x_leaf (CLeaf (hd_multi 3 4 1) l_u16) 3 9); auto; vm_compute; try reflexivity; discriminate. }
  exists [4;8;1;2;0;10;2;2;0;11], []. split; [reflexivity|]. split; [repeat split; vm_compute; intros; discriminate|]. split; [|reflexivity].
  apply (x_one (CNest (hd_o 4) None OrdSame ex_inner)). exists [1;2;0;10;2;2;0;11]. split.
  - exists [1;2;0;10], [2;2;0;11]. split; [reflexivity|]. split; [repeat split; vm_compute; intros; discriminate|].
    split; [apply x_one; apply (x_leaf (CLeaf (hd_m 1) l_u16) 1 10); auto; vm_compute; try reflexivity; discriminate|].
    exists [2;2;0;11], []. split; [reflexivity|]. split; [repeat split; vm_compute; intros; discriminate|]. split; [|reflexivity].
    apply x_one. apply (x_leaf (CLeaf (hd_o 2) l_u16) 2 11); auto; vm_compute; try reflexivity; discriminate.
  - exists [4; 8]. split; [|reflexivity]. apply (t8l8v_headers (ti_of_tag 4)); [exists 4; split; [reflexivity|vm_compute; reflexivity]|vm_compute; discriminate].
Qed.
Lemma x_rest be :
  tail_closed AnyTail /\ cfg_ok t8l8v /\ Forall (all_cfgs cfg_ok) ex_table
  /\ Forall (all_leaves (leaf_local AnyTail)) ex_table /\ Forall (all_leaves (leaf_safe AnyTail)) ex_table /\ all_tables table_ok ex_table
  /\ all_tables maxes_pos ex_table /\ all_tables small_table ex_table /\ Forall all_unordered ex_table
  /\ mgtlvs_encode (t_mleaf be) be 48 (x_decoded be) t8l8v 64 0 (Some x_table) [] = EOk ex_bytes
  /\ x_decoded false = [7;0;0;0; 0;0;0;0; 0;0;0;0; 2;0;0;0; 8;0;0;0; 9;0;0;0; 0;0;0;0; 0;0;0;0; 1;0;0;0; 10;0;0;0; 1;0;0;0; 11;0;0;0].
Proof.
  split; [easy|]. split; [apply t8l8v_ok|]. split; [apply ex_cfgs|]. split; [apply ex_local|]. split; [apply ex_safe|]. split; [apply ex_table_ok|].
  split; [split; [repeat constructor; discriminate|repeat constructor; discriminate]|].
  split; [split; [vm_compute; discriminate|repeat constructor; vm_compute; discriminate]|].
  split; [repeat constructor; discriminate|]. split; [destruct be; vm_compute; reflexivity|vm_compute; reflexivity].
Qed.
