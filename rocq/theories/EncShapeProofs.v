(* EncShapeProofs.v -- C17: when a successful encode has written what it should *)
From Verif Require Import Base BaseProofs GtlvModel GtlvSpec GtlvProofs DecEncModel DecEncSpec DecEncProofs.

Section ES.
Context {V : Type}.
Context (c : cfg) (hs maxlen : N) (hdr : tag_inst -> N -> list N) (tag_ok : tag_inst -> Prop)
        (HF : fixed_format c hs maxlen hdr tag_ok).

Let hdr_len ti len : lenN (hdr ti len) = hs. Proof. apply HF. Qed.
Let st_ok ti len avail : tag_ok ti -> len <= maxlen -> hs <= avail -> cfg_store c avail ti len = Ok (hdr ti len). Proof. apply HF. Qed.
Let st_len ti len avail h : cfg_store c avail ti len = Ok h -> lenN h = hs /\ hs <= avail. Proof. apply HF. Qed.
Let st_ub ti len avail u : cfg_store c avail ti len <> UB u. Proof. apply HF. Qed.

Definition lastok (p : put) : Prop :=
  match pt_last p with None => True | Some (_, tl, v) => v = tl + hs /\ v <= lenN (pt_buf p) end.

Lemma overwrite_len buf ofs bs : ofs + lenN bs <= lenN buf -> lenN (overwrite buf ofs bs) = lenN buf.
Proof. intros H. unfold overwrite. rewrite !lenN_app, lenN_takeN, lenN_dropN by lia. lia. Qed.

Lemma put_tli_mono p ti len p' rc : put_tli c p ti len = (p', rc) -> lastok p ->
  lastok p' /\ lenN (pt_buf p) <= lenN (pt_buf p') /\ pt_cap p' = pt_cap p.
Proof.
  unfold put_tli. intros H Hl. destruct (cfg_store c _ ti len) as [h|e|u] eqn:E; [|inversion H; subst; repeat split; auto; lia..].
  apply st_len in E as [E1 E2]. dif_in H E3; [injection H as <- <-; repeat split; auto; lia|]. injection H as <- <-.
  unfold lastok. cbn. rewrite lenN_app. repeat split; lia.
Qed.
Lemma put_update_mono p p' rc : put_update_tl c p = (p', rc) -> lastok p ->
  lastok p' /\ lenN (pt_buf p) <= lenN (pt_buf p') /\ pt_cap p' = pt_cap p.
Proof.
  unfold put_update_tl, lastok. intros H Hl. destruct (pt_last p) as [[[ti tl] v]|] eqn:El; [|inversion H; subst; rewrite El; repeat split; auto; lia].
  destruct (cfg_store c _ ti _) as [h|e|u] eqn:E; [|inversion H; subst; rewrite El; repeat split; auto; lia..].
  apply st_len in E as [E1 E2]. injection H as <- <-. cbn [pt_last pt_buf pt_cap]. rewrite overwrite_len by lia. repeat split; lia.
Qed.

Definition mono_enc (enc : cfg -> N -> list N -> val V -> eres) : Prop :=
  forall cap buf v buf', enc c cap buf v = EOk buf' -> lenN buf <= lenN buf'.

Lemma enc_vals_mono (e : eentry V) : mono_enc (ee_enc e) -> forall vals p i p', lastok p -> enc_vals c e p i vals = POk p' ->
  lastok p' /\ lenN (pt_buf p) <= lenN (pt_buf p') /\ pt_cap p' = pt_cap p.
Proof.
  intros He. induction vals as [|v vals IH]; intros p i p' Hl H; cbn [enc_vals] in H.
  - inversion H; subst. repeat split; auto; lia.
  - destruct (put_tli c p (h_ti (ee_h e)) 0) as [p1 rc] eqn:E1. destruct (put_tli_mono _ _ _ _ _ E1 Hl) as (Hl1 & Hm1 & Hc1).
    assert (H' : exists buf p2 rc2, ee_enc e c (pt_cap p1) (pt_buf p1) v = EOk buf
        /\ put_update_tl c (mkPut buf (pt_cap p1) (pt_last p1)) = (p2, rc2) /\ enc_vals c e p2 (i + 1) vals = POk p').
    { destruct rc as [x|er|u]; try discriminate; dif_in H E2; try discriminate;
      (destruct (ee_enc e c (pt_cap p1) (pt_buf p1) v) as [buf|buf er'|u'] eqn:E3; try discriminate);
      destruct (put_update_tl c (mkPut buf (pt_cap p1) (pt_last p1))) as [p2 rc2] eqn:E4; exists buf, p2, rc2; destruct rc2; try discriminate; auto. }
    destruct H' as (buf & p2 & rc2 & E3 & E4 & H5). apply He in E3.
    destruct (put_update_mono _ _ _ E4) as (Hl2 & Hm2 & Hc2).
    { unfold lastok in *. cbn. destruct (pt_last p1) as [[[ti tl] w]|]; [lia|auto]. }
    cbn [pt_buf pt_cap] in *. destruct (IH _ _ _ Hl2 H5) as (Hl3 & Hm3 & Hc3). repeat split; auto; [lia|congruence].
Qed.

Lemma enc_entries_mono (es : list (eentry V)) : Forall (fun e => mono_enc (ee_enc e)) es -> forall slots p p', lastok p -> enc_entries c es p slots = POk p' ->
  lastok p' /\ lenN (pt_buf p) <= lenN (pt_buf p') /\ pt_cap p' = pt_cap p.
Proof.
  intros He. induction He as [|e es He _ IH]; intros [|s slots] p p' Hl H; cbn [enc_entries] in H;
    try (inversion H; subst; repeat split; auto; lia).
  destruct (enc_vals c e p 0 _) as [p1|p1 er|u] eqn:E1; try discriminate.
  destruct (enc_vals_mono e He _ _ _ _ Hl E1) as (Hl1 & Hm1 & Hc1). destruct (IH _ _ _ Hl1 H) as (Hl2 & Hm2 & Hc2).
  repeat split; auto; [lia|congruence].
Qed.

Lemma enc_coding_mono : forall cd, all_cfgs (fun x => x = c) cd -> mono_enc (enc_coding (V := V) cd).
Proof.
  induction cd as [h l|h nc o ies IH] using coding_ind'; intros Hc cap buf v buf' H.
  - cbn in H. destruct v as [x|]; [|discriminate]. destruct (lf_enc l) as [f|]; [|discriminate].
    destruct (f (tailroom buf cap) x) as [bs [er|]]; dif_in H E; inversion H; subst. rewrite lenN_app. lia.
  - cbn [all_cfgs] in Hc. destruct Hc as [Hc1 Hc2]. rewrite fold_right_and_Forall in Hc2. cbn in H. destruct v as [|slots]; [discriminate|].
    change (map (fun d => mkEEntry (head d) (enc_coding d)) ies) with (map (@eentry_of V) ies) in H.
    replace (match nc with Some x => x | None => c end) with c in H by (destruct nc; congruence).
    unfold enc_list in H. destruct (enc_entries c (map eentry_of ies) _ slots) as [p|p er|u] eqn:E; inversion H; subst.
    apply enc_entries_mono in E as (_ & Hm & _); [exact Hm| |exact I].
    apply Forall_map. rewrite Forall_forall in *. intros d Hd. apply IH; auto.
Qed.

(* ---------------------------------------------------------------- shape *)
Definition shape_enc (enc : cfg -> N -> list N -> val V -> eres) (R : val V -> list N -> Prop) : Prop :=
  forall cap buf v buf', enc c cap buf v = EOk buf' -> lenN buf' + hs <= cap -> lenN buf' <= maxlen ->
    exists bs, buf' = buf ++ bs /\ R v bs.

Lemma enc_vals_shape (e : eentry V) R : mono_enc (ee_enc e) -> shape_enc (ee_enc e) R -> tag_ok (h_ti (ee_h e)) ->
  forall vals p i p', enc_vals c e p i vals = POk p' -> lastok p ->
  lenN (pt_buf p') + hs <= pt_cap p -> lenN (pt_buf p') <= maxlen ->
  exists vbs, Forall2 R vals vbs /\ pt_buf p' = pt_buf p ++ concat (map (fun vb => hdr (h_ti (ee_h e)) (lenN vb) ++ vb) vbs).
Proof.
  intros Hmo Hsh Htag. induction vals as [|v vals IH]; intros p i p' H Hl Hcap Hmax.
  - cbn in H. inversion H; subst. exists []. split; [constructor|]. cbn. rewrite app_nil_r. reflexivity.
  - pose proof (enc_vals_mono e Hmo _ _ _ _ Hl H) as (_ & Hm0 & Hc0). cbn [enc_vals] in H.
    unfold put_tli, tailroom in H. rewrite (st_ok _ 0 _ Htag) in H by lia. cbn [pt_buf pt_cap pt_last] in H. rewrite hdr_len in H.
    dif_in H E0; [lia|]. dif_in H E1; [discriminate|]. cbn [pt_buf pt_cap pt_last] in H.
    destruct (ee_enc e c (pt_cap p) (pt_buf p ++ hdr (h_ti (ee_h e)) 0) v) as [buf|buf er|u] eqn:E2; try discriminate.
    pose proof (Hmo _ _ _ _ E2) as Hmb. rewrite lenN_app, hdr_len in Hmb.
    destruct (put_update_tl c (mkPut buf (pt_cap p) (Some (h_ti (ee_h e), lenN (pt_buf p), lenN (pt_buf p) + hs)))) as [p2 rc2] eqn:E3.
    assert (Hl1 : lastok (mkPut buf (pt_cap p) (Some (h_ti (ee_h e), lenN (pt_buf p), lenN (pt_buf p) + hs)))) by (unfold lastok; cbn; lia).
    destruct (put_update_mono _ _ _ E3 Hl1) as (Hl2 & Hm2 & Hc2). cbn [pt_buf pt_cap] in Hm2, Hc2.
    assert (H4 : enc_vals c e p2 (i + 1) vals = POk p') by (destruct rc2; [exact H|exact H|discriminate]).
    pose proof (enc_vals_mono e Hmo _ _ _ _ Hl2 H4) as (_ & Hm4 & Hc4).
    destruct (Hsh _ _ _ _ E2) as (vb & -> & HR); [lia|lia|].
    unfold put_update_tl in E3. cbn [pt_last pt_buf pt_cap] in E3.
    replace (lenN ((pt_buf p ++ hdr (h_ti (ee_h e)) 0) ++ vb) - (lenN (pt_buf p) + hs)) with (lenN vb) in E3
      by (rewrite !lenN_app, hdr_len; lia).
    rewrite !lenN_app, hdr_len in *.
    rewrite (st_ok _ (lenN vb) _ Htag) in E3 by lia. rewrite <- app_assoc, overwrite_mid in E3 by (rewrite !hdr_len; reflexivity).
    inversion E3; subst p2; clear E3. cbn [pt_buf pt_cap pt_last] in *.
    destruct (IH _ _ _ H4 Hl2) as (vbs & HF2 & Hbuf); [cbn [pt_cap]; lia|lia|]. cbn [pt_buf] in Hbuf.
    exists (vb :: vbs). split; [constructor; assumption|]. rewrite Hbuf. cbn [map concat]. rewrite <- !app_assoc. reflexivity.
Qed.

Lemma enc_entries_shape (ies : list (coding V)) :
  Forall (fun d => mono_enc (enc_coding d) /\ shape_enc (enc_coding d) (val_shape hdr d) /\ tag_ok (h_ti (head d))) ies ->
  forall slots p p', enc_entries c (map eentry_of ies) p slots = POk p' -> lastok p ->
  lenN (pt_buf p') + hs <= pt_cap p -> lenN (pt_buf p') <= maxlen ->
  exists bs, pt_buf p' = pt_buf p ++ bs /\ struct_shape hdr ies slots bs.
Proof.
  intros He. induction He as [|d ies (Hmo & Hsh & Htag) He IH]; intros slots p p' H Hl Hcap Hmax.
  - cbn in H. inversion H; subst. exists []. rewrite app_nil_r. split; [reflexivity|]. reflexivity.
  - destruct slots as [|s slots].
    { cbn in H. inversion H; subst. exists []. rewrite app_nil_r. split; reflexivity. }
    cbn [map enc_entries] in H. destruct (enc_vals c (eentry_of d) p 0 _) as [p1|p1 er|u] eqn:E1; try discriminate.
    destruct (enc_vals_mono (eentry_of d) Hmo _ _ _ _ Hl E1) as (Hl1 & Hm1 & Hc1).
    assert (Hmono : Forall (fun e => mono_enc (ee_enc e)) (map (@eentry_of V) ies)).
    { apply Forall_map. eapply Forall_impl; [|exact He]. cbn. tauto. }
    destruct (enc_entries_mono _ Hmono _ _ _ Hl1 H) as (_ & Hm2 & Hc2).
    destruct (enc_vals_shape (eentry_of d) (val_shape hdr d) Hmo Hsh Htag _ _ _ _ E1 Hl) as (vbs & H1 & H2); [lia|lia|].
    destruct (IH _ _ _ H Hl1) as (bs & H3 & H4); [lia|lia|].
    eexists. split; [|exists (concat (map (fun vb => hdr (h_ti (head d)) (lenN vb) ++ vb) vbs)), bs; split; [reflexivity|]; split; [exists vbs; split; [exact H1|reflexivity]|exact H4]].
    rewrite H3, H2, <- app_assoc. reflexivity.
Qed.

Lemma val_shape_nest h nc o ies slots bs : val_shape (V := V) hdr (CNest h nc o ies) (VStruct slots) bs <-> struct_shape hdr ies slots bs.
Proof.
  cbn [val_shape]. revert slots bs. induction ies as [|d ies IH]; intros [|s slots] bs; cbn [struct_shape]; try tauto.
  split; intros (b1 & b2 & H1 & H2 & H3); exists b1, b2; repeat split; auto; apply IH; assumption.
Qed.

Lemma enc_coding_shape : forall cd, all_cfgs (fun x => x = c) cd -> all_tags tag_ok cd ->
  shape_enc (enc_coding (V := V) cd) (val_shape hdr cd).
Proof.
  induction cd as [h l|h nc o ies IH] using coding_ind'; intros Hc Ht cap buf v buf' H Hcap Hmax.
  - cbn in H. destruct v as [x|]; [|discriminate]. destruct (lf_enc l) as [f|] eqn:El; [|discriminate].
    destruct (f (tailroom buf cap) x) as [bs [er|]] eqn:Ef; dif_in H E; inversion H; subst.
    exists bs. split; [reflexivity|]. cbn. eauto.
  - cbn [all_cfgs all_tags] in *. destruct Hc as [Hc1 Hc2]. destruct Ht as [Ht1 Ht2]. rewrite fold_right_and_Forall in Hc2, Ht2. cbn in H. destruct v as [|slots]; [discriminate|].
    change (map (fun d => mkEEntry (head d) (enc_coding d)) ies) with (map (@eentry_of V) ies) in H.
    replace (match nc with Some x => x | None => c end) with c in H by (destruct nc; congruence).
    unfold enc_list in H. destruct (enc_entries c (map eentry_of ies) _ slots) as [p|p er|u] eqn:E; inversion H; subst.
    destruct (enc_entries_shape ies) with (slots := slots) (p := mkPut buf cap None) (p' := p) as (bs & H1 & H2); auto.
    + rewrite Forall_forall in *. intros d Hd. split; [apply enc_coding_mono; auto|]. split; [apply IH; auto|].
      specialize (Ht2 d Hd). destruct d; cbn in Ht2 |- *; tauto.
    + exact I.
    + exists bs. split; [exact H1|]. apply val_shape_nest. exact H2.
Qed.

Theorem gtlvs_encode_shape ies cap buf slots buf' :
  Forall (all_cfgs (fun x => x = c)) ies -> Forall (all_tags tag_ok) ies ->
  gtlvs_encode c cap (Some ies) buf slots = EOk buf' -> lenN buf' + hs <= cap -> lenN buf' <= maxlen ->
  exists bs, buf' = buf ++ bs /\ struct_shape (V := V) hdr ies slots bs.
Proof.
  intros Hc Ht H Hcap Hmax. cbn [gtlvs_encode] in H. unfold enc_list in H.
  destruct (enc_entries c (map eentry_of ies) _ slots) as [p|p er|u] eqn:E; inversion H; subst.
  destruct (enc_entries_shape ies) with (slots := slots) (p := mkPut buf cap None) (p' := p) as (bs & H1 & H2); eauto.
  - rewrite Forall_forall in *. intros d Hd. split; [apply enc_coding_mono; auto|]. split; [apply enc_coding_shape; auto|].
    specialize (Ht d Hd). destruct d; cbn in Ht |- *; tauto.
  - exact I.
Qed.

End ES.
