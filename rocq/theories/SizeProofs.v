(* SizeProofs.v -- bounds of the wire form of valid messages *)
From Verif Require Import Base BaseProofs GtlvModel DecEncModel DecEncSpec IesModel IesSpec IesProofs
  TablesModel MsgModel MsgSpec MsgProofs MsgEncProofs.

Lemma valid_addrs_len x : valid_addrs x -> lenN (wire_addrs x) <= 20.
Proof.
  unfold valid_addrs, wire_addrs. intros [H4 H6]. rewrite lenN_app.
  assert (lenN (sa_addr (ia_v4 x)) <= 4).
  { destruct (ia_v4p x); [destruct H4 as (a & -> & H & _); cbn; unfold lenN; lia|rewrite H4; cbn; unfold lenN; cbn; lia]. }
  assert (lenN (sa_addr (ia_v6 x)) <= 16).
  { destruct (ia_v6p x); [destruct H6 as (a & -> & Hx & _); cbn; unfold lenN; lia|rewrite H6; cbn; unfold lenN; cbn; lia]. }
  lia.
Qed.
Lemma opt_wire_len p w n : lenN (opt_wire p w n) <= N.of_nat w.
Proof. unfold opt_wire. destruct p; [rewrite be_put_lenN; lia|]. unfold lenN. cbn. lia. Qed.

Lemma wire_ie_size k v bs : valid_ie k v -> wire_ie k v bs -> lenN bs <= max_ie k.
Proof.
  assert (H4 : forall a, addr4 a -> lenN a = 4) by (intros a [H _]; unfold lenN; lia).
  assert (H16 : forall a, addr6 a -> lenN a = 16) by (intros a [H _]; unfold lenN; lia).
  assert (HL : forall (l : list N) n, length l = n -> lenN l = N.of_nat n) by (intros l n H; unfold lenN; lia).
  assert (HA : forall x, valid_addrs x -> lenN (wire_addrs x) <= 20) by (exact valid_addrs_len).
  destruct k; destruct v; cbn [valid_ie wire_ie max_ie]; try contradiction; intros Hv Hw; try subst bs;
  rewrite ?lenN_cons, ?lenN_app, ?be_put_lenN; change (lenN (@nil N)) with 0;
  try (change (N.of_nat 8) with 8); try (change (N.of_nat 4) with 4); try (change (N.of_nat 2) with 2); try lia.
  - destruct x; try contradiction.
    + destruct Hv as (a & -> & Hv). subst bs. rewrite lenN_cons. cbn [sa_addr]. rewrite (H4 _ Hv). lia.
    + destruct Hv as (a & -> & Hv). subst bs. rewrite lenN_cons. cbn [sa_addr]. rewrite (H16 _ Hv). lia.
    + destruct Hw as (labels & Hlab & -> & ->). rewrite lenN_cons, lenN_wire_labels by apply Hlab. destruct Hv as (l2 & _ & _ & Hv). lia.
  - rewrite (HL _ _ (proj1 Hv)). lia.
  - rewrite (HL _ _ (proj1 Hv)). lia.
  - pose proof (HA _ (proj2 Hv)). lia.
  - destruct x; subst bs; rewrite lenN_cons.
    + rewrite lenN_app, be_put_lenN. change (N.of_nat 4) with 4. pose proof (HA _ (proj2 Hv)). lia.
    + match goal with |- context [opt_wire ?p ?w ?n] => pose proof (opt_wire_len p w n) end. lia.
  - rewrite (HL _ _ (proj1 Hv)). lia.
  - destruct Hw as (labels & Hlab & -> & ->). rewrite lenN_wire_labels by apply Hlab. destruct Hv as (l2 & _ & _ & Hv). lia.
  - destruct Hv as (d0 & d1 & Hd & _ & _ & _ & _ & _ & _ & _ & _ & Ha & _). rewrite Hd. pose proof (HA _ Ha).
    repeat match goal with |- context [opt_wire ?p ?w ?n] => pose proof (opt_wire_len p w n); generalize dependent (lenN (opt_wire p w n)); intros end.
    rewrite !lenN_cons. change (lenN (@nil N)) with 0. lia.
  - destruct Hv as (_ & b & -> & _). destruct (or_extp x); rewrite ?lenN_cons; change (lenN (@nil N)) with 0; lia.
  - pose proof (HA _ (proj1 Hv)).
    repeat match goal with |- context [opt_wire ?p ?w ?n] => pose proof (opt_wire_len p w n); generalize dependent (lenN (opt_wire p w n)); intros end. lia.
Qed.

Lemma slot_size p s vbs : (forall v bs, valid_val p v -> wire_val p v bs -> lenN bs <= max_val p) -> Forall (valid_val p) s ->
  Forall2 (wire_val p) s vbs -> lenN (concat (map (wire_tlv (ti_tag (h_ti (phead p)))) vbs)) <= lenN s * (4 + max_val p).
Proof.
  intros Hp Hs Hf. revert Hs. induction Hf as [|v vb s vbs Hv Hf IH]; intros Hs; [cbn; unfold lenN; cbn; lia|].
  inversion Hs; subst. cbn [map concat]. rewrite lenN_app, wire_tlv_len, lenN_cons. specialize (IH ltac:(assumption)).
  assert (lenN vb <= max_val p) by (apply (Hp v); assumption). nia.
Qed.
Lemma slots_size ies : Forall (fun p => forall v bs, valid_val p v -> wire_val p v bs -> lenN bs <= max_val p) ies -> forall slots bs,
  valid_struct ies slots -> wire_struct ies slots bs -> lenN bs <= max_struct ies.
Proof.
  intros H. induction H as [|p ies Hp H IH]; intros slots bs Hv Hw; inversion Hv as [|? s ? slots' [Hc Hs] Hv']; subst.
  - cbn in Hw. subst bs. unfold lenN. cbn. lia.
  - cbn [wire_struct] in Hw. destruct Hw as (vbs & b2 & Hf & -> & H2). rewrite lenN_app. unfold max_struct. cbn [fold_right].
    fold (max_struct ies). pose proof (IH _ _ Hv' H2). pose proof (slot_size p s vbs Hp Hs Hf).
    assert (lenN s <= cap_of (phead p)).
    { unfold count_ok, cap_of in *. destruct (h_multi (phead p)) as [[mx mand]|], (h_pres (phead p)); lia. }
    nia.
Qed.
Lemma val_size p : forall v bs, valid_val p v -> wire_val p v bs -> lenN bs <= max_val p.
Proof.
  induction p as [h k|h ies IH] using pcoding_ind'; intros [x|slots] bs Hv Hw; try contradiction.
  - exact (wire_ie_size k x bs Hv Hw).
  - apply valid_val_nest in Hv. apply wire_val_nest in Hw. exact (slots_size ies IH slots bs Hv Hw).
Qed.
Lemma struct_size ies slots bs : valid_struct ies slots -> wire_struct ies slots bs -> lenN bs <= max_struct ies.
Proof. apply slots_size, Forall_forall. intros p _. apply val_size. Qed.

(* all message types except Session Establishment Request (50), Modification Request (52) and Response (53) *)
Definition fits_always (t : N) : Prop := t <> 50 /\ t <> 52 /\ t <> 53.
Lemma max_msg t tab : get_msg_coding t = Some tab -> fits_always t -> max_struct tab <= 2032.
Proof.
  unfold get_msg_coding, fits_always. intros H (H1 & H2 & H3).
  repeat (match type of H with context [if ?b then _ else _] => destruct b eqn:?; [injection H as <-; try (vm_compute; discriminate);
    unfold msgt_session_est_req, msgt_session_mod_req, msgt_session_mod_resp in *; lia|] end).
  discriminate.
Qed.
Lemma encode_fits h ies tab : valid_hdr h -> get_msg_coding (hd_type h) = Some tab -> valid_struct tab ies ->
  fits_always (hd_type h) ->
  exists bs m', wire_struct tab ies bs /\ msg_encode (msgb_new alloc_size) h ies = MOk m' /\ mb_buf m' = wire_hdr h false (lenN bs) ++ bs.
Proof.
  intros Hh Ht Hv Hf. destruct (wire_struct_exists tab ies Hv) as (bs & Hw).
  pose proof (struct_size _ _ _ Hv Hw). pose proof (max_msg _ _ Ht Hf).
  assert (hdr_len h <= 16) by (unfold hdr_len; destruct (hd_seid h); lia).
  exists bs. eexists. split; [exact Hw|]. split.
  - apply (msg_encode_wire _ _ _ bs); [|change (0 + hdr_len h + lenN bs <= 2048); lia].
    split; [exact Hh|]. exists tab. repeat split; try assumption. lia.
  - reflexivity.
Qed.
