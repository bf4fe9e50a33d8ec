(* WfProofs.v -- well-formed structs have a wire form, and a successful encode writes it *)
From Verif Require Import Base BaseProofs GtlvModel GtlvSpec GtlvProofs DecEncModel DecEncSpec DecEncProofs DecCharProofs RtProofs EncShapeProofs.

Lemma rep_header_repr c rep hdr ti len : cfg_rt c rep hdr -> 1 <= cfg_min c -> rep ti len -> header_repr c ti len (hdr ti len).
Proof.
  intros H Hm Hr. pose proof (rt_min _ _ _ H ti len Hr). repeat split; try lia.
  - intros avail Ha. apply (rt_store _ _ _ H); assumption.
  - intros avail Ha. apply (rt_store0 _ _ _ H); assumption.
  - exists ti. split; [apply ti_match_refl|]. intros rest left Hl. apply (rt_load _ _ _ H); assumption.
Qed.


Lemma t8l8v_headers : headers_repr t8l8v 255 hdr_t8l8v tag8.
Proof.
  intros ti len (t & -> & Ht) Hl. apply (rep_header_repr _ rep_t8l8v); [apply t8l8v_rt|cbn; lia|]. exists t. repeat split; lia.
Qed.
Lemma t16l16v_headers : headers_repr t16l16v 65535 hdr_t16l16v tag16.
Proof.
  intros ti len (t & -> & Ht) Hl. apply (rep_header_repr _ rep_t16l16v); [apply t16l16v_rt|cbn; lia|]. exists t. repeat split; lia.
Qed.
Lemma t8l8v_fixed : fixed_format t8l8v 2 255 hdr_t8l8v tag8.
Proof.
  repeat split.
  - intros ti len avail (t & -> & Ht) Hl Ha. apply (rt_store _ _ _ t8l8v_rt); [exists t; repeat split; lia|exact Ha].
  - destruct (t8l8v_store_cases avail ti len) as [(_ & E)|[(_ & _ & E)|[(_ & _ & _ & E)|(_ & _ & _ & E & _)]]]; rewrite E in H; try discriminate.
    injection H as <-. reflexivity.
  - destruct (t8l8v_store_cases avail ti len) as [(_ & E)|[(_ & _ & E)|[(_ & _ & _ & E)|(_ & _ & ? & E & _)]]]; rewrite E in H; try discriminate. lia.
  - intros ti len avail u E'. destruct (t8l8v_store_cases avail ti len) as [(_ & E)|[(_ & _ & E)|[(_ & _ & _ & E)|(_ & _ & ? & E & _)]]]; rewrite E in E'; discriminate.
Qed.
Lemma t16l16v_fixed : fixed_format t16l16v 4 65535 hdr_t16l16v tag16.
Proof.
  repeat split.
  - intros ti len avail (t & -> & Ht) Hl Ha. apply (rt_store _ _ _ t16l16v_rt); [exists t; repeat split; lia|exact Ha].
  - destruct (t16l16v_store_cases avail ti len) as [(_ & E)|[(_ & _ & E)|[(_ & _ & _ & E)|(_ & _ & _ & E & _)]]]; rewrite E in H; try discriminate.
    injection H as <-. reflexivity.
  - destruct (t16l16v_store_cases avail ti len) as [(_ & E)|[(_ & _ & E)|[(_ & _ & _ & E)|(_ & _ & ? & E & _)]]]; rewrite E in H; try discriminate. lia.
  - intros ti len avail u E'. destruct (t16l16v_store_cases avail ti len) as [(_ & E)|[(_ & _ & E)|[(_ & _ & _ & E)|(_ & _ & ? & E & _)]]]; rewrite E in E'; discriminate.
Qed.

Section Wf.
Context {V : Type}.
Context (Tail : list N -> Prop) (c : cfg) (maxlen : N) (hdr : tag_inst -> N -> list N) (tag_ok : tag_inst -> Prop)
        (HH : headers_repr c maxlen hdr tag_ok).

Lemma val_wf_nest h nc o ies slots : val_wf (V := V) Tail (CNest h nc o ies) (VStruct slots) <-> struct_wf Tail ies slots.
Proof.
  unfold struct_wf. cbn [val_wf]. revert slots. induction ies as [|d ies IH]; intros [|s slots]; cbn.
  - split; [constructor|auto].
  - split; [intros []|intros H; inversion H].
  - split; [intros []|intros H; inversion H].
  - rewrite IH. split.
    + intros (A & B & C). constructor; [split; assumption|exact C].
    + intros H. inversion H; subst. tauto.
Qed.

(* one TLV of a value with a wire form of admissible size *)
Lemma tlv_of ti vb : tag_ok ti -> lenN vb <= maxlen -> tlv_repr c ti vb (hdr ti (lenN vb) ++ vb).
Proof. intros Ht Hl. eexists. split; [apply HH; assumption|reflexivity]. Qed.

Definition has_repr (d : coding V) (v : val V) : Prop := exists bs, lenN bs <= maxlen -> val_repr Tail d c v bs.

Lemma slot_has_repr (d : coding V) s : tag_ok (h_ti (head d)) -> Forall (has_repr d) s ->
  exists b1, lenN b1 <= maxlen ->
    concat_of (fun v b => exists vb, val_repr Tail d c v vb /\ tlv_repr c (h_ti (head d)) vb b) s b1.
Proof.
  intros Ht H. induction H as [|v s (vb & Hv) H (b1 & IH)].
  - exists []. intros _. exists []. split; [constructor|reflexivity].
  - exists ((hdr (h_ti (head d)) (lenN vb) ++ vb) ++ b1). rewrite !lenN_app. intros Hl.
    destruct IH as (bss & HF & ->); [lia|]. exists ((hdr (h_ti (head d)) (lenN vb) ++ vb) :: bss). split; [|reflexivity].
    constructor; [|exact HF]. exists vb. split; [apply Hv; lia|]. apply tlv_of; [exact Ht|lia].
Qed.

Lemma slots_have_repr (ies : list (coding V)) slots : Forall (fun d => tag_ok (h_ti (head d))) ies ->
  Forall2 (fun d s => count_ok (head d) (lenN s) /\ Forall (has_repr d) s) ies slots ->
  exists bs, lenN bs <= maxlen -> struct_repr Tail c ies slots bs.
Proof.
  intros Ht H. induction H as [|d s ies slots [Hc Hs] H IH].
  - exists []. intros _. reflexivity.
  - inversion Ht as [|? ? Ht1 Ht2]; subst. destruct (IH Ht2) as (b2 & H2). destruct (slot_has_repr d s Ht1 Hs) as (b1 & H1).
    exists (b1 ++ b2). rewrite lenN_app. intros Hl. cbn [struct_repr]. exists b1, b2. repeat split; [exact Hc|apply H1; lia|apply H2; lia].
Qed.

Lemma all_tags_head P (d : coding V) : all_tags P d -> P (h_ti (head d)).
Proof. destruct d; cbn; tauto. Qed.

Lemma val_wf_repr (d : coding V) : all_cfgs (fun x => x = c) d -> all_tags tag_ok d -> forall v, val_wf Tail d v -> has_repr d v.
Proof.
  induction d as [h l|h nc o ies IH] using coding_ind'; intros Hc Ht [x|slots] Hv; try contradiction.
  - destruct Hv as (_ & bs & Hb). exists bs. intros _. exact Hb.
  - apply val_wf_nest in Hv. cbn [all_cfgs all_tags] in Hc, Ht. destruct Hc as [Hnc Hc], Ht as [Ht0 Ht].
    apply fold_right_and_Forall in Hc, Ht.
    destruct (slots_have_repr ies slots) as (bs & Hb).
    + eapply Forall_impl; [|exact Ht]. intros d Hd. apply all_tags_head, Hd.
    + clear Ht0. revert Hc Ht. unfold struct_wf in Hv. induction Hv as [|d s ies slots [Hc Hs] Hv IHv]; intros Hc' Ht'; [constructor|].
      inversion IH as [|? ? IH1 IH2]; subst. inversion Hc' as [|? ? Hc1 Hc2]; subst. inversion Ht' as [|? ? Ht1 Ht2]; subst.
      constructor; [|apply IHv; assumption]. split; [exact Hc|]. eapply Forall_impl; [|exact Hs]. intros v Hv'. apply IH1; assumption.
    + exists bs. intros Hl. apply val_repr_nest. replace (match nc with Some x => x | None => c end) with c by (destruct nc; [symmetry; exact Hnc|reflexivity]).
      apply Hb, Hl.
Qed.

Theorem struct_wf_repr (ies : list (coding V)) slots : Forall (all_cfgs (fun x => x = c)) ies -> Forall (all_tags tag_ok) ies ->
  struct_wf Tail ies slots -> exists bs, lenN bs <= maxlen -> struct_repr Tail c ies slots bs.
Proof.
  intros Hc Ht Hv. apply slots_have_repr.
  - eapply Forall_impl; [|exact Ht]. intros d Hd. apply all_tags_head, Hd.
  - unfold struct_wf in Hv. revert Hc Ht. induction Hv as [|d s ies slots [Hc Hs] Hv IHv]; intros Hc' Ht'; [constructor|].
    inversion Hc' as [|? ? Hc1 Hc2]; subst. inversion Ht' as [|? ? Ht1 Ht2]; subst.
    constructor; [|apply IHv; assumption]. split; [exact Hc|]. eapply Forall_impl; [|exact Hs]. intros v Hv'. apply val_wf_repr; assumption.
Qed.

(* ---------------------------------------------------------------- what was written is the wire form *)

Lemma count_to_encode (h : chead) (s : slot V) : count_ok h (lenN s) ->
  (match h_multi h with Some _ => s | None => firstn 1 s end) = s.
Proof.
  intros Hc. apply count_ok_cap in Hc. unfold cap_of in Hc. destruct (h_multi h); [reflexivity|].
  destruct s as [|a [|b s]]; try reflexivity. rewrite !lenN_cons in Hc. lia.
Qed.

Definition shape_to_repr (d : coding V) : Prop :=
  forall v bs, val_wf Tail d v -> val_shape hdr d v bs -> lenN bs <= maxlen -> val_repr Tail d c v bs.

Lemma tlvs_repr (d : coding V) s b1 : shape_to_repr d -> tag_ok (h_ti (head d)) -> count_ok (head d) (lenN s) ->
  Forall (val_wf Tail d) s -> tlvs_of hdr (head d) (val_shape hdr d) s b1 -> lenN b1 <= maxlen ->
  concat_of (fun v b => exists vb, val_repr Tail d c v vb /\ tlv_repr c (h_ti (head d)) vb b) s b1.
Proof.
  intros Hd Ht Hc Hwf (vbs & Hf & ->). rewrite count_to_encode in Hf by exact Hc. intros Hl.
  exists (map (fun vb => hdr (h_ti (head d)) (lenN vb) ++ vb) vbs). split; [|reflexivity].
  clear Hc. induction Hf as [|v vb s vbs Hv Hf IH]; cbn [map]; [constructor|].
  cbn [map concat] in Hl. rewrite !lenN_app in Hl. inversion Hwf as [|? ? Hw1 Hw2]; subst.
  constructor.
  - exists vb. split; [apply Hd; [exact Hw1|exact Hv|lia]|]. apply tlv_of; [exact Ht|lia].
  - apply IH; [exact Hw2|lia].
Qed.

Lemma slots_shape_repr (ies : list (coding V)) slots : Forall shape_to_repr ies -> Forall (fun d => tag_ok (h_ti (head d))) ies ->
  struct_wf Tail ies slots -> forall bs, struct_shape hdr ies slots bs -> lenN bs <= maxlen -> struct_repr Tail c ies slots bs.
Proof.
  intros Hd Ht Hwf. unfold struct_wf in Hwf. induction Hwf as [|d s ies slots [Hc Hs] H IH]; intros bs Hb Hl; [exact Hb|].
  cbn [struct_shape] in Hb. destruct Hb as (b1 & b2 & -> & H1 & H2). rewrite lenN_app in Hl.
  inversion Hd as [|? ? Hd1 Hd2]; subst. inversion Ht as [|? ? Ht1 Ht2]; subst.
  exists b1, b2. repeat split; [exact Hc| |apply IH; try assumption; lia].
  apply tlvs_repr; try assumption. lia.
Qed.

Lemma val_shape_nest h nc o ies slots bs :
  val_shape (V := V) hdr (CNest h nc o ies) (VStruct slots) bs <-> struct_shape hdr ies slots bs.
Proof.
  cbn [val_shape]. revert slots bs. induction ies as [|d ies IH]; intros slots bs; [destruct slots; reflexivity|].
  destruct slots as [|s slots]; [reflexivity|]. cbn [struct_shape].
  split; intros (b1 & b2 & E & H1 & H2); exists b1, b2; (split; [exact E|]); (split; [exact H1|]); apply IH; exact H2.
Qed.

Lemma val_shape_repr (d : coding V) : all_cfgs (fun x => x = c) d -> all_tags tag_ok d -> shape_to_repr d.
Proof.
  induction d as [h l|h nc o ies IH] using coding_ind'; intros Hc Ht [x|slots] bs Hv Hb Hl; try contradiction.
  - destruct Hv as (Hdet & bs' & Hr). destruct Hb as (f & room & Ef & Efx).
    cbn [val_repr]. destruct Hr as [(f' & Ef' & Hf') Hdec]. rewrite Ef in Ef'. injection Ef' as <-.
    assert (bs = bs') as ->; [|split; [exists f; auto|exact Hdec]].
    eapply Hdet; [exact Ef|exact Efx|]. apply (Hf' (lenN bs')). lia.
  - apply val_wf_nest in Hv. apply val_shape_nest in Hb. cbn [all_cfgs all_tags] in Hc, Ht. destruct Hc as [Hnc Hc], Ht as [Ht0 Ht].
    apply fold_right_and_Forall in Hc, Ht.
    apply val_repr_nest. replace (match nc with Some x => x | None => c end) with c by (destruct nc; [symmetry; exact Hnc|reflexivity]).
    apply slots_shape_repr; try assumption.
    + rewrite Forall_forall in *. intros d Hd. apply IH; [exact Hd|apply Hc, Hd|apply Ht, Hd].
    + eapply Forall_impl; [|exact Ht]. intros d Hd. apply all_tags_head, Hd.
Qed.

Theorem struct_shape_repr (ies : list (coding V)) slots bs : Forall (all_cfgs (fun x => x = c)) ies -> Forall (all_tags tag_ok) ies ->
  struct_wf Tail ies slots -> struct_shape hdr ies slots bs -> lenN bs <= maxlen -> struct_repr Tail c ies slots bs.
Proof.
  intros Hc Ht Hwf Hb Hl. apply slots_shape_repr; try assumption.
  - rewrite Forall_forall in *. intros d Hd. apply val_shape_repr; [apply Hc, Hd|apply Ht, Hd].
  - eapply Forall_impl; [|exact Ht]. intros d Hd. apply all_tags_head, Hd.
Qed.
End Wf.

(* The round trip as a statement about a successful osmo_gtlvs_encode(). *)
Theorem encode_decode {V} Tail c hs maxlen hdr tag_ok o (ies : list (coding V)) cap buf slots buf' rest :
  fixed_format c hs maxlen hdr tag_ok -> headers_repr c maxlen hdr tag_ok -> cfg_ok c -> tail_closed Tail -> Tail rest ->
  Forall (all_cfgs (fun x => x = c)) ies -> Forall (all_tags tag_ok) ies -> Forall (all_leaves (leaf_local Tail)) ies ->
  all_tables table_ok ies -> struct_wf Tail ies slots ->
  gtlvs_encode c cap (Some ies) buf slots = EOk buf' -> lenN buf' + hs <= cap -> lenN buf' <= maxlen ->
  exists bs, buf' = buf ++ bs /\ gtlvs_decode c o (Some ies) (bs ++ rest) (lenN bs) = Ok slots.
Proof.
  intros HF HH Hok Htc Hr Hc Ht Hl Htab Hwf He H1 H2.
  destruct (gtlvs_encode_shape c hs maxlen hdr tag_ok HF ies cap buf slots buf' Hc Ht He H1 H2) as (bs & -> & Hs).
  exists bs. split; [reflexivity|]. rewrite lenN_app in H2.
  eapply gtlvs_decode_rt; try eassumption.
  - rewrite Forall_forall in *. intros d Hd. specialize (Hc d Hd). clear -Hc Hok.
    revert Hc. induction d as [h l|h nc o ies IH] using coding_ind'; cbn [all_cfgs]; [trivial|]. intros [Hn Hi].
    split; [destruct nc; [rewrite Hn; exact Hok|exact I]|]. apply fold_right_and_Forall in Hi. apply fold_right_and_Forall.
    rewrite Forall_forall in *. intros d Hd. apply IH; [exact Hd|apply Hi, Hd].
  - eapply struct_shape_repr; try eassumption. lia.
Qed.
