(* EndpointLife.v -- consequences of the life of a message (EndpointSpec.v) for what is observed *)
From Verif Require Import Base BaseProofs GtlvModel DecEncModel IesModel TablesModel MsgModel EndpointModel EndpointSpec.

Lemma count_nil f : count f [] = 0.
Proof. reflexivity. Qed.
Lemma count_cons f o tr : count f (o :: tr) = (if f o then 1 else 0) + count f tr.
Proof. unfold count. cbn. destruct (f o); [rewrite lenN_cons; lia|lia]. Qed.
Lemma count_app f a b : count f (a ++ b) = count f a + count f b.
Proof. unfold count. rewrite filter_app, lenN_app. reflexivity. Qed.
Lemma tr_of_cons id o tr : tr_of id (o :: tr) = if about id o then o :: tr_of id tr else tr_of id tr.
Proof. reflexivity. Qed.
Lemma count_tr_of f id tr : (forall o, f o = true -> about id o = true) -> count f (tr_of id tr) = count f tr.
Proof.
  intros H. induction tr as [|o tr IH]; [reflexivity|]. rewrite tr_of_cons. destruct (about id o) eqn:E; rewrite !count_cons, ?IH; [reflexivity|].
  destruct (f o) eqn:F; [|reflexivity]. apply H in F. congruence.
Qed.
Lemma send_times_tr_of id tr : send_times id (tr_of id tr) = send_times id tr.
Proof.
  induction tr as [|o tr IH]; [reflexivity|]. rewrite tr_of_cons. destruct (about id o) eqn:E.
  - destruct o as [| |[i|] t to bs| | | | | |]; cbn; try exact IH; rewrite IH; reflexivity.
  - destruct o as [| |[i|] t to bs| | | | | |]; cbn; try exact IH. cbn in E. rewrite E. exact IH.
Qed.
Lemma in_tr_of id o tr : about id o = true -> (In o (tr_of id tr) <-> In o tr).
Proof. unfold tr_of. rewrite filter_In. tauto. Qed.
Lemma send_times_len id tr : lenN (send_times id tr) = count (is_send id) tr.
Proof.
  induction tr as [|o tr IH]; cbn; [reflexivity|]. rewrite count_cons.
  destruct o as [| |[i|] t to bs| | | | | |]; cbn; try exact IH. destruct (i =? id); [rewrite lenN_cons|]; rewrite IH; lia.
Qed.

Section Life.
Variables (c : ep_cfg) (D : N -> N -> Prop) (cl : bool) (id : N) (m : minfo).

Definition ok_sends (tr : list out) : Prop :=
  forall t to bs, In (OSend (Some id) t to bs) tr -> to = mi_to m /\ bs = mi_bs m /\ encoded c m.
Definition ok_tx (tr : list out) : Prop := forall to h ies cb, In (OTx id to h ies cb) tr ->
  to = mi_to m /\ h = mi_h m /\ ies = mi_ies m /\ cb = mi_cb m.

(* everything that is counted *)
Record obs := mkObs { n_send : N; n_err : N; n_fail : N; n_ok : N; n_free : N; n_timer : N }.
Definition obs_of (tr : list out) : obs :=
  mkObs (count (is_send id) tr) (count (is_senderr id) tr) (count (is_resp_fail id) tr) (count (is_resp_ok id) tr)
    (count (is_free id) tr) (count (is_timer id) tr).

Inductive cause := Answered | TimedOut | SendFailed | Closed.
Record linv (tr : list out) (p : phase) : Prop := mkLinv {
  li_sends : ok_sends tr;
  li_tx : ok_tx tr;
  li_seq : mi_resp m = false -> In (OSeq (Some id) (mi_nr m)) tr;
  li_txin : In (OTx id (mi_to m) (mi_h m) (mi_ies m) (mi_cb m)) tr;
  li_phase :
    match p with
    | PWait k dl => mi_resp m = false /\ c_n1 c <> 0 /\ c_t1 c <> 0 /\ k <= c_n1 c
        /\ obs_of tr = mkObs (1 + c_n1 c - k) 0 0 0 0 (c_n1 c - k)
        /\ (exists t l, send_times id tr = t :: l /\ dl = t + c_t1 c)
        /\ spaced (fun a b => D a b) (c_t1 c) (send_times id tr)
        /\ encoded c m
    | PCached dl => mi_resp m = true /\ c_n1 c <> 0 /\ c_t1 c <> 0 /\ n_fail (obs_of tr) = 0 /\ n_ok (obs_of tr) = 0
        /\ n_free (obs_of tr) = 0 /\ n_timer (obs_of tr) = 0
        /\ (exists t, first_send id tr t /\ dl = t + c_keep c) /\ encoded c m
    | PGone =>
      if mi_resp m then
        n_fail (obs_of tr) = 0 /\ n_ok (obs_of tr) = 0 /\ n_free (obs_of tr) <= 1 /\ n_timer (obs_of tr) <= 1
        /\ (n_free (obs_of tr) = 0 -> (c_n1 c = 0 \/ c_t1 c = 0) /\ n_send (obs_of tr) = 1)
        /\ (n_timer (obs_of tr) = 1 -> exists t t', first_send id tr t /\ In (OTimer id t') tr /\ D (t + c_keep c) t')
        /\ (n_timer (obs_of tr) = 0 -> n_free (obs_of tr) = 0 \/ n_send (obs_of tr) = 0 \/ cl = true)
      else
        let cb := if mi_cb m then 1 else 0 in
        (c_n1 c = 0 \/ c_t1 c = 0) /\ obs_of tr = mkObs 1 0 cb 0 0 0
        \/ obs_of tr = mkObs 0 1 cb 0 1 0
        \/ c_n1 c <> 0 /\ c_t1 c <> 0 /\ spaced (fun a b => D a b) (c_t1 c) (send_times id tr) /\ encoded c m
           /\ exists k, k <= c_n1 c /\
             (obs_of tr = mkObs (1 + c_n1 c) 0 cb 0 1 (c_n1 c + 1)                              (* timed out *)
              \/ k <> 0 /\ obs_of tr = mkObs (1 + c_n1 c - k) 1 cb 0 1 (c_n1 c - k + 1)         (* retransmission failed *)
              \/ obs_of tr = mkObs (1 + c_n1 c - k) 0 0 cb 1 (c_n1 c - k)                       (* answered *)
              \/ cl = true /\ obs_of tr = mkObs (1 + c_n1 c - k) 0 0 0 1 (c_n1 c - k))          (* closed *)
    end
}.

Ltac cnt := unfold obs_of, fail_cb, tx_start; repeat (rewrite ?count_cons, ?count_app, ?count_nil; cbn [is_send is_senderr is_resp_fail is_resp_ok is_free is_timer app]);
  rewrite ?N.eqb_refl; rewrite ?N.add_0_l, ?N.add_0_r.

Lemma obs_cons o tr : obs_of (o :: tr) =
  mkObs ((if is_send id o then 1 else 0) + n_send (obs_of tr)) ((if is_senderr id o then 1 else 0) + n_err (obs_of tr))
    ((if is_resp_fail id o then 1 else 0) + n_fail (obs_of tr)) ((if is_resp_ok id o then 1 else 0) + n_ok (obs_of tr))
    ((if is_free id o then 1 else 0) + n_free (obs_of tr)) ((if is_timer id o then 1 else 0) + n_timer (obs_of tr)).
Proof. unfold obs_of. cbn [n_send n_err n_fail n_ok n_free n_timer]. rewrite !count_cons. reflexivity. Qed.
Lemma obs_nil : obs_of [] = mkObs 0 0 0 0 0 0.
Proof. reflexivity. Qed.
Ltac oc := rewrite ?obs_cons, ?obs_nil; cbn [is_send is_senderr is_resp_fail is_resp_ok is_free is_timer n_send n_err n_fail n_ok n_free n_timer];
  rewrite ?N.eqb_refl.

Lemma in_tx_start o : In o (tx_start id m) -> o = OSeq (Some id) (mi_nr m) \/ o = OTx id (mi_to m) (mi_h m) (mi_ies m) (mi_cb m).
Proof. unfold tx_start. rewrite in_app_iff. destruct (mi_resp m); cbn; intuition. Qed.
Lemma in_fail_cb o : In o (fail_cb id m) -> o = OResp id None.
Proof. unfold fail_cb. destruct (negb (mi_resp m) && mi_cb m); cbn; intuition. Qed.

Lemma birth_inv tr p : birth c id m tr p -> linv tr p.
Proof.
  intros H. constructor.
  - destruct H; intros t0 to bs Hin; cbn [In] in Hin; rewrite ?in_app_iff in Hin; cbn [In] in Hin;
    repeat match goal with
    | H : _ \/ _ |- _ => destruct H as [H|H]
    | H : In _ (fail_cb id m) |- _ => apply in_fail_cb in H; discriminate
    | H : In _ (tx_start id m) |- _ => apply in_tx_start in H; destruct H; discriminate
    | H : OSend _ _ _ _ = OSend _ _ _ _ |- _ => injection H as <- <- <-; auto
    | _ => try discriminate
    end.
  - destruct H; intros to h ies cb Hin; cbn [In] in Hin; rewrite ?in_app_iff in Hin; cbn [In] in Hin;
    repeat match goal with
    | H : _ \/ _ |- _ => destruct H as [H|H]
    | H : In _ (fail_cb id m) |- _ => apply in_fail_cb in H; discriminate
    | H : In _ (tx_start id m) |- _ => apply in_tx_start in H; destruct H as [H|H]; [discriminate|]; injection H as -> -> -> ->; auto
    | _ => try discriminate
    end.
  - intros R. assert (In (OSeq (Some id) (mi_nr m)) (tx_start id m)) by (unfold tx_start; rewrite R; cbn; tauto).
    destruct H; repeat (rewrite ?in_app_iff; right); assumption.
  - assert (In (OTx id (mi_to m) (mi_h m) (mi_ies m) (mi_cb m)) (tx_start id m)) by (unfold tx_start; rewrite in_app_iff; right; left; reflexivity).
    destruct H; repeat (rewrite ?in_app_iff; right); assumption.
  - destruct H as [|t Hz He|t Hn Ht R He|t Hn Ht R He]; unfold fail_cb, tx_start.
    + destruct (mi_resp m); cbn [negb andb app].
      * oc. repeat split; try lia.
      * right. left. destruct (mi_cb m); cbn [app]; oc; reflexivity.
    + destruct (mi_resp m); cbn [negb andb app].
      * oc. repeat split; try lia.
      * left. split; [assumption|]. destruct (mi_cb m); cbn [app]; oc; reflexivity.
    + rewrite R. cbn [negb andb app]. oc. cbn [send_times]. rewrite N.eqb_refl. repeat split; try assumption; try apply He; try lia.
      * f_equal; lia.
      * eauto.
    + rewrite R. cbn [negb andb app]. oc. repeat split; try assumption; try apply He; try lia.
      exists t. split; [|reflexivity]. exists []. cbn. rewrite N.eqb_refl. reflexivity.
Qed.

Lemma obs_eq_fields tr a b d e f g : obs_of tr = mkObs a b d e f g ->
  n_send (obs_of tr) = a /\ n_err (obs_of tr) = b /\ n_fail (obs_of tr) = d /\ n_ok (obs_of tr) = e /\ n_free (obs_of tr) = f /\ n_timer (obs_of tr) = g.
Proof. intros ->. repeat split. Qed.

Lemma lstep_inv tr p tr' p' : linv tr p -> lstep c D cl id m tr p tr' p' -> linv tr' p'.
Proof.
  intros [H1 H2 H3 H5 H4] Hs. constructor.
  - intros t0 to bs Hin. destruct Hs; cbn [In] in Hin; rewrite ?in_app_iff in Hin; cbn [In] in Hin;
    repeat match goal with
    | H : _ \/ _ |- _ => destruct H as [H|H]
    | H : In _ (fail_cb id m) |- _ => apply in_fail_cb in H; discriminate
    | H : In _ (if ?b then _ else _) |- _ => destruct b; cbn in H
    | H : OSend _ _ _ _ = OSend _ _ _ _ |- _ => injection H as <- <- <-; split; [reflexivity|split; [reflexivity|apply H4]]
    | H : In _ tr |- _ => exact (H1 _ _ _ H)
    | H : In _ (_ ++ _) |- _ => apply in_app_iff in H
    | _ => try discriminate; try contradiction
    end.
  - intros to h0 ies0 cb0 Hin. destruct Hs; cbn [In] in Hin; rewrite ?in_app_iff in Hin; cbn [In] in Hin;
    repeat match goal with
    | H : _ \/ _ |- _ => destruct H as [H|H]
    | H : In _ (fail_cb id m) |- _ => apply in_fail_cb in H; discriminate
    | H : In _ (if ?b then _ else _) |- _ => destruct b; cbn in H
    | H : In _ tr |- _ => exact (H2 _ _ _ _ H)
    | H : In _ (_ ++ _) |- _ => apply in_app_iff in H
    | _ => try discriminate; try contradiction
    end.
  - intros R. specialize (H3 R). destruct Hs; cbn; rewrite ?in_app_iff; cbn; rewrite ?in_app_iff; tauto.
  - destruct Hs; cbn; rewrite ?in_app_iff; cbn; rewrite ?in_app_iff; tauto.
  - destruct Hs as [tr k dl t HD|tr k dl t HD|tr dl t HD|tr k dl h ies from disp Hh Hq Hd|tr dl t|tr dl|tr dl t HD|tr p Hc Hp].
    + destruct H4 as (R & Hn & Ht & Hk & Ho & (t0 & l & Hl & ->) & Hsp & He). oc. rewrite Ho. cbn [send_times]. rewrite N.eqb_refl. oc.
      repeat split; try assumption; try apply He; try lia.
      * f_equal; lia.
      * eauto.
      * rewrite Hl in *. split; assumption.
    + destruct H4 as (R & Hn & Ht & Hk & Ho & _ & Hsp & He). unfold fail_cb. rewrite R. right. right.
      split; [assumption|]. split; [assumption|]. split; [|split; [assumption|]].
      * cbn. destruct (mi_cb m); exact Hsp.
      * exists (k + 1). split; [lia|]. right. left. split; [lia|]. destruct (mi_cb m); cbn [negb andb app]; oc; rewrite Ho; oc; f_equal; lia.
    + destruct H4 as (R & Hn & Ht & Hk & Ho & _ & Hsp & He). unfold fail_cb. rewrite R. right. right.
      split; [assumption|]. split; [assumption|]. split; [|split; [assumption|]].
      * cbn. destruct (mi_cb m); exact Hsp.
      * exists 0. split; [lia|]. left. destruct (mi_cb m); cbn [negb andb app]; oc; rewrite Ho; oc; f_equal; lia.
    + destruct H4 as (R & Hn & Ht & Hk & Ho & _ & Hsp & He). rewrite R. right. right.
      split; [assumption|]. split; [assumption|]. split; [|split; [assumption|]].
      * destruct (mi_cb m), disp; exact Hsp.
      * exists k. split; [lia|]. right. right. left. destruct (mi_cb m), disp; cbn [app]; oc; rewrite Ho; oc; f_equal; lia.
    + destruct H4 as (R & Hn & Ht & Ha & Hb & Hc & Hd & (t0 & (l & Hl) & ->) & He). oc.
      repeat split; try assumption; try apply He; try lia.
      exists t0. split; [|reflexivity]. exists (t :: l). cbn. rewrite N.eqb_refl, Hl. reflexivity.
    + destruct H4 as (R & Hn & Ht & Ha & Hb & Hc & Hd & (t0 & (l & Hl) & ->) & He). oc.
      repeat split; try assumption; try apply He; try lia.
      exists t0. split; [|reflexivity]. exists l. exact Hl.
    + destruct H4 as (R & Hn & Ht & Ha & Hb & Hc & Hd & (t0 & (l & Hl) & ->) & He). rewrite R. oc. repeat split; try lia.
      intros _. exists t0, t. repeat split; [exists l; exact Hl|cbn; tauto|assumption].
    + destruct p as [k dl|dl|]; [| |congruence].
      * destruct H4 as (R & Hn & Ht & Hk & Ho & _ & Hsp & He). rewrite R. right. right.
        split; [assumption|]. split; [assumption|]. split; [exact Hsp|split; [assumption|]].
        exists k. split; [lia|]. right. right. right. split; [assumption|]. oc. rewrite Ho. oc. f_equal; lia.
      * destruct H4 as (R & Hn & Ht & Ha & Hb & Hcc & Hd & (t0 & (l & Hl) & ->) & He). rewrite R. oc. repeat split; try lia. tauto.
Qed.
Lemma lsteps_inv tr p tr' p' : linv tr p -> lsteps c D cl id m tr p tr' p' -> linv tr' p'.
Proof. intros H L. induction L as [|? ? ? ? L IH Hs]; [assumption|]. eapply lstep_inv; [exact IH|exact Hs]. Qed.
Lemma life_inv tr p : life c D cl id m tr p -> linv tr p.
Proof. intros (tr0 & p0 & Hb & Hl). eapply lsteps_inv; [apply birth_inv; exact Hb|exact Hl]. Qed.
End Life.
