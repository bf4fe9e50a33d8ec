(* VaryProofs.v -- proofs about histories with changing timers *)
From Verif Require Import Base BaseProofs GtlvModel DecEncModel IesModel IesProofs TablesModel MsgModel EndpointModel EndpointSpec EndpointProofs EndpointRun EndpointLife EndpointFinal EndpointProps EndpointExt EndpointProps2 EndpointProps3 VarySpec.

Lemma vrun_app l1 : forall s l2, vrun s (l1 ++ l2) = bind (vrun s l1) (fun s' => vrun s' l2).
Proof. induction l1 as [|[c ev] l1 IH]; intros s l2; cbn; [reflexivity|]. destruct (step c s ev); cbn; auto. Qed.

(* ---------------------------------------------------------------- the life of one message *)
Section Life.
Variables (P : ep_cfg -> Prop) (c : ep_cfg) (D : N -> N -> Prop) (cl : bool) (id : N) (m : minfo).
Inductive vlsteps (tr : list out) (p : phase) : list out -> phase -> Prop :=
| VL_nil : vlsteps tr p tr p
| VL_cons c' tr1 p1 tr2 p2 : vlsteps tr p tr1 p1 -> P c' -> lstep c' D cl id m tr1 p1 tr2 p2 -> vlsteps tr p tr2 p2.
Lemma vlsteps_trans tr1 p1 tr2 p2 tr3 p3 : vlsteps tr1 p1 tr2 p2 -> vlsteps tr2 p2 tr3 p3 -> vlsteps tr1 p1 tr3 p3.
Proof. intros A B. induction B; [exact A|]. econstructor; eassumption. Qed.
Lemma vlsteps_one c' tr1 p1 tr2 p2 : P c' -> lsteps c' D cl id m tr1 p1 tr2 p2 -> vlsteps tr1 p1 tr2 p2.
Proof. intros H A. induction A; [constructor|]. econstructor; [eassumption|exact H|eassumption]. Qed.

(* the times of two transmissions in a row *)
Definition gap (t t' : N) : Prop := exists c', P c' /\ D (t + c_t1 c') t'.
Record vinv (tr : list out) (p : phase) : Prop := mkVinv {
  vi_sends : ok_sends c id m tr;
  vi_tx : ok_tx id m tr;
  vi_txin : In (OTx id (mi_to m) (mi_h m) (mi_ies m) (mi_cb m)) tr;
  vi_phase :
    match p with
    | PWait k dl => mi_resp m = false /\ c_n1 c <> 0 /\ c_t1 c <> 0 /\ k <= c_n1 c
        /\ obs_of id tr = mkObs (1 + c_n1 c - k) 0 0 0 0 (c_n1 c - k)
        /\ (exists t l c', P c' /\ send_times id tr = t :: l /\ dl = t + c_t1 c')
        /\ spaced gap 0 (send_times id tr) /\ encoded c m
    | PCached dl => mi_resp m = true /\ c_n1 c <> 0 /\ c_t1 c <> 0 /\ n_fail (obs_of id tr) = 0 /\ n_ok (obs_of id tr) = 0
        /\ n_free (obs_of id tr) = 0 /\ n_timer (obs_of id tr) = 0
        /\ (exists t, first_send id tr t /\ dl = t + c_keep c) /\ encoded c m
    | PGone =>
      if mi_resp m then
        n_fail (obs_of id tr) = 0 /\ n_ok (obs_of id tr) = 0 /\ n_free (obs_of id tr) <= 1 /\ n_timer (obs_of id tr) <= 1
        /\ (n_free (obs_of id tr) = 0 -> (c_n1 c = 0 \/ c_t1 c = 0) /\ n_send (obs_of id tr) = 1)
        /\ (n_timer (obs_of id tr) = 1 -> exists t t', first_send id tr t /\ In (OTimer id t') tr /\ D (t + c_keep c) t')
        /\ (n_timer (obs_of id tr) = 0 -> n_free (obs_of id tr) = 0 \/ n_send (obs_of id tr) = 0 \/ cl = true)
      else
        let cb := if mi_cb m then 1 else 0 in
        (c_n1 c = 0 \/ c_t1 c = 0) /\ obs_of id tr = mkObs 1 0 cb 0 0 0
        \/ obs_of id tr = mkObs 0 1 cb 0 1 0
        \/ c_n1 c <> 0 /\ c_t1 c <> 0 /\ spaced gap 0 (send_times id tr) /\ encoded c m
           /\ exists k, k <= c_n1 c /\
             (obs_of id tr = mkObs (1 + c_n1 c) 0 cb 0 1 (c_n1 c + 1)
              \/ k <> 0 /\ obs_of id tr = mkObs (1 + c_n1 c - k) 1 cb 0 1 (c_n1 c - k + 1)
              \/ obs_of id tr = mkObs (1 + c_n1 c - k) 0 0 cb 1 (c_n1 c - k)
              \/ cl = true /\ obs_of id tr = mkObs (1 + c_n1 c - k) 0 0 0 1 (c_n1 c - k))
    end
}.
Lemma spaced_gap tr : P c -> spaced (fun a b => D a b) (c_t1 c) tr -> spaced gap 0 tr.
Proof.
  intros H. induction tr as [|x [|y l] IH]; cbn [spaced]; try tauto. intros [A B]. split; [|apply IH; exact B].
  exists c. split; [exact H|]. rewrite N.add_0_r. exact A.
Qed.
Lemma linv_vinv tr p : P c -> linv c D cl id m tr p -> vinv tr p.
Proof.
  intros H [A B C E F]. constructor; try assumption. destruct p as [k dl|dl|]; [|exact F|].
  - destruct F as (F1 & F2 & F3 & F4 & F5 & (t & l & F6 & F6') & F7 & F8). do 5 (split; [assumption|]). split; [exists t, l, c; auto|]. split; [|exact F8]. apply spaced_gap; assumption.
  - destruct (mi_resp m); [exact F|]. destruct F as [F|[F|(F1 & F2 & F3 & F4)]]; [left; exact F|right; left; exact F|]. right. right.
    split; [exact F1|]. split; [exact F2|]. split; [apply spaced_gap; assumption|exact F4].
Qed.

Ltac oc := rewrite ?obs_cons, ?obs_nil; cbn [is_send is_senderr is_resp_fail is_resp_ok is_free is_timer n_send n_err n_fail n_ok n_free n_timer];
  rewrite ?N.eqb_refl.
Lemma in_fail o : In o (fail_cb id m) -> o = OResp id None.
Proof. unfold fail_cb. destruct (_ && _); [|intros []]. intros [<-|[]]. reflexivity. Qed.
Lemma vstep_inv c' tr p tr' p' : P c' -> vinv tr p -> lstep c' D cl id m tr p tr' p' -> vinv tr' p'.
Proof.
  intros HP [H1 H2 H5 H4] Hs. constructor.
  - intros t0 to bs Hin. destruct Hs; cbn [In] in Hin; rewrite ?in_app_iff in Hin; cbn [In] in Hin;
    repeat match goal with
    | H : _ \/ _ |- _ => destruct H as [H|H]
    | H : In _ (fail_cb id m) |- _ => apply in_fail in H; discriminate
    | H : In _ (if ?b then _ else _) |- _ => destruct b; cbn in H
    | H : OSend _ _ _ _ = OSend _ _ _ _ |- _ => injection H as <- <- <-; split; [reflexivity|split; [reflexivity|apply H4]]
    | H : In _ tr |- _ => exact (H1 _ _ _ H)
    | H : In _ (_ ++ _) |- _ => apply in_app_iff in H
    | _ => try discriminate; try contradiction
    end.
  - intros to h0 ies0 cb0 Hin. destruct Hs; cbn [In] in Hin; rewrite ?in_app_iff in Hin; cbn [In] in Hin;
    repeat match goal with
    | H : _ \/ _ |- _ => destruct H as [H|H]
    | H : In _ (fail_cb id m) |- _ => apply in_fail in H; discriminate
    | H : In _ (if ?b then _ else _) |- _ => destruct b; cbn in H
    | H : In _ tr |- _ => exact (H2 _ _ _ _ H)
    | H : In _ (_ ++ _) |- _ => apply in_app_iff in H
    | _ => try discriminate; try contradiction
    end.
  - destruct Hs; cbn; rewrite ?in_app_iff; cbn; rewrite ?in_app_iff; tauto.
  - destruct Hs as [tr k dl t HD|tr k dl t HD|tr dl t HD|tr k dl h ies from disp Hh Hq Hd|tr dl t|tr dl|tr dl t HD|tr p Hc Hp].
    + destruct H4 as (R & Hn & Ht & Hk & Ho & (t0 & l & c1 & Hc1 & Hl & ->) & Hsp & He). oc. rewrite Ho. cbn [send_times]. rewrite N.eqb_refl. oc.
      repeat split; try assumption; try apply He; try lia.
      * f_equal; lia.
      * exists t, (send_times id tr), c'. repeat split; assumption.
      * rewrite Hl in *. split; [|exact Hsp]. exists c1. rewrite N.add_0_r. split; assumption.
    + destruct H4 as (R & Hn & Ht & Hk & Ho & _ & Hsp & He). unfold fail_cb. rewrite R. right. right.
      split; [assumption|]. split; [assumption|]. split; [|split; [assumption|]].
      * cbn. destruct (mi_cb m); exact Hsp.
      * exists (k + 1). split; [lia|]. right. left. split; [lia|]. destruct (mi_cb m); cbn [negb andb app]; oc; rewrite Ho; oc; f_equal; lia.
    + destruct H4 as (R & Hn & Ht & Hk & Ho & _ & Hsp & He). unfold fail_cb. rewrite R. right. right.
      split; [assumption|]. split; [assumption|]. split; [|split; [assumption|]].
      * cbn. destruct (mi_cb m); exact Hsp.
      * exists 0. split; [lia|]. left. destruct (mi_cb m); cbn [negb andb app]; oc; rewrite Ho; oc; f_equal; lia.
    + destruct H4 as (R & Hn & Ht & Hk & Ho & _ & Hsp & He). rewrite R. right. right.
      split; [assumption|]. split; [assumption|]. split; [|split; [assumption|]].
      * destruct (mi_cb m), disp; exact Hsp.
      * exists k. split; [lia|]. right. right. left. destruct (mi_cb m), disp; cbn [app]; oc; rewrite Ho; oc; f_equal; lia.
    + destruct H4 as (R & Hn & Ht & Ha & Hb & Hc & Hd & (t0 & (l & Hl) & ->) & He). oc.
      repeat split; try assumption; try apply He; try lia.
      exists t0. split; [|reflexivity]. exists (t :: l). cbn. rewrite N.eqb_refl, Hl. reflexivity.
    + destruct H4 as (R & Hn & Ht & Ha & Hb & Hc & Hd & (t0 & (l & Hl) & ->) & He). oc.
      repeat split; try assumption; try apply He; try lia.
      exists t0. split; [|reflexivity]. exists l. exact Hl.
    + destruct H4 as (R & Hn & Ht & Ha & Hb & Hc & Hd & (t0 & (l & Hl) & ->) & He). rewrite R. oc. repeat split; try lia.
      intros _. exists t0, t. repeat split; [exists l; exact Hl|cbn; tauto|assumption].
    + destruct p as [k dl|dl|]; [| |congruence].
      * destruct H4 as (R & Hn & Ht & Hk & Ho & _ & Hsp & He). rewrite R. right. right.
        split; [assumption|]. split; [assumption|]. split; [exact Hsp|split; [assumption|]].
        exists k. split; [lia|]. right. right. right. split; [assumption|]. oc. rewrite Ho. oc. f_equal; lia.
      * destruct H4 as (R & Hn & Ht & Ha & Hb & Hcc & Hd & (t0 & (l & Hl) & ->) & He). rewrite R. oc. repeat split; try lia. tauto.
Qed.
Lemma vsteps_inv tr p tr' p' : vinv tr p -> vlsteps tr p tr' p' -> vinv tr' p'.
Proof. intros H L. induction L as [|c' ? ? ? ? L IH HP Hs]; [assumption|]. eapply vstep_inv; [exact HP|exact IH|exact Hs]. Qed.
End Life.

(* ---------------------------------------------------------------- histories *)
Record Vadv (P : ep_cfg -> Prop) (D : N -> N -> Prop) (cl : bool) (s s' : ep) : Prop := mkVadv {
  va_wf : WF s';
  va_now : e_now s <= e_now s';
  va_next : e_next s <= e_next s';
  va_old : forall id m p, id < e_next s -> in_phase s id m p ->
    exists p', vlsteps P D cl id m (tr_of id (e_trace s)) p (tr_of id (e_trace s')) p' /\ in_phase s' id m p';
  va_born : forall id, e_next s <= id -> id < e_next s' ->
    exists c m p, P c /\ vinv P c D cl id m (tr_of id (e_trace s')) p /\ in_phase s' id m p
}.
Lemma adv_vadv (P : ep_cfg -> Prop) c D cl s s' : P c -> Adv c D cl s s' -> Vadv P D cl s s'.
Proof.
  intros H [A1 A2 A3 A4 A5 A6]. constructor; try assumption.
  - intros id m p Hid Hp. destruct (A5 id m p Hid Hp) as (p' & L & Hp'). exists p'. split; [|exact Hp']. apply (vlsteps_one P _ _ _ _ c); assumption.
  - intros id H1 H2. destruct (A6 id H1 H2) as (m & p & L & Hp). exists c, m, p. split; [exact H|]. split; [|exact Hp]. apply linv_vinv; [exact H|]. apply life_inv. exact L.
Qed.
Lemma vadv_refl P D cl s : WF s -> Vadv P D cl s s.
Proof.
  intros H. constructor; [assumption|lia|lia| |intros; lia].
  intros id m p Hid Hp. exists p. split; [constructor|exact Hp].
Qed.
Lemma vadv_trans P D cl s1 s2 s3 : Vadv P D cl s1 s2 -> Vadv P D cl s2 s3 -> Vadv P D cl s1 s3.
Proof.
  intros [A1 A2 A4 A5 A6] [B1 B2 B4 B5 B6]. constructor; try assumption; [lia|lia| |].
  - intros id m p Hid Hp. destruct (A5 id m p Hid Hp) as (p1 & L1 & Hp1). destruct (B5 id m p1) as (p2 & L2 & Hp2); [lia|assumption|].
    exists p2. split; [|assumption]. eapply vlsteps_trans; eassumption.
  - intros id H1 H2. destruct (id <? e_next s2) eqn:E; [|apply B6; lia].
    destruct (A6 id) as (c & m & p & Hc & I & Hp); [lia|lia|]. destruct (B5 id m p) as (p2 & L2 & Hp2); [lia|assumption|].
    exists c, m, p2. split; [exact Hc|]. split; [|exact Hp2]. eapply vsteps_inv; [exact I|exact L2].
Qed.
Lemma vrun_adv (P : ep_cfg -> Prop) cl l : forall s s' T, WF s -> timers P l -> (cl = false -> vfree is_close l) -> vrun s l = Ok s' -> e_now s' <= T ->
  Vadv P (D_le T) cl s s'.
Proof.
  induction l as [|[c ev] l IH]; intros s s' T H Hp Hc E HT; cbn in E; [injection E as <-; apply vadv_refl; assumption|].
  inv_bind E. rename x into s1. match goal with Hs : step c s ev = Ok s1 |- _ => rename Hs into E1 end.
  assert (Hc1 : cl = false -> event_free is_close ev) by (intros C; specialize (Hc C); inversion Hc; assumption).
  assert (Hc2 : cl = false -> vfree is_close l) by (intros C; specialize (Hc C); inversion Hc; assumption).
  inversion Hp as [|? ? P1 P2]; subst. cbn [fst] in P1.
  assert (A0 : Adv c (fun _ _ => True) cl s s1) by (eapply step_adv; [exact H|exact Hc1|intros ? ? ?; exact I|exact E1]).
  pose proof (IH s1 s' T (adv_wf _ _ _ _ _ A0) P2 Hc2 E HT) as A2.
  eapply vadv_trans; [|exact A2]. apply (adv_vadv P c); [exact P1|]. eapply step_adv; [exact H|exact Hc1| |exact E1].
  intros q Hq Hd. split; [assumption|]. pose proof (adv_now _ _ _ _ _ A0). pose proof (va_now _ _ _ _ _ A2). lia.
Qed.
Lemma vrun_prompt (P : ep_cfg -> Prop) cl l : forall s s' T, WF s -> none_overdue s -> vprompt s l -> timers P l -> (cl = false -> vfree is_close l) -> vrun s l = Ok s' -> e_now s' <= T ->
  Vadv P (D_eq T) cl s s' /\ none_overdue s'.
Proof.
  induction l as [|[c ev] l IH]; intros s s' T H Ho Hq Hp Hc E HT; cbn in E; [injection E as <-; split; [apply vadv_refl|]; assumption|].
  inv_bind E. rename x into s1. match goal with Hs : step c s ev = Ok s1 |- _ => rename Hs into E1 end. cbn in Hq. rewrite E1 in Hq. destruct Hq as [Hq1 Hq2].
  assert (Hc1 : cl = false -> event_free is_close ev) by (intros C; specialize (Hc C); inversion Hc; assumption).
  assert (Hc2 : cl = false -> vfree is_close l) by (intros C; specialize (Hc C); inversion Hc; assumption).
  inversion Hp as [|? ? P1 P2]; subst. cbn [fst] in P1.
  assert (A0 : Adv c (fun _ _ => True) cl s s1) by (eapply step_adv; [exact H|exact Hc1|intros ? ? ?; exact I|exact E1]).
  pose proof (step_none_overdue _ _ _ _ Ho Hq1 E1) as Ho1.
  destruct (IH s1 s' T (adv_wf _ _ _ _ _ A0) Ho1 Hq2 P2 Hc2 E HT) as [A2 Ho2]. split; [|exact Ho2].
  eapply vadv_trans; [|exact A2]. apply (adv_vadv P c); [exact P1|]. eapply step_adv; [exact H|exact Hc1| |exact E1].
  intros q Hq Hd. specialize (Ho q Hq). pose proof (adv_now _ _ _ _ _ A0). pose proof (va_now _ _ _ _ _ A2). split; lia.
Qed.

(* ---------------------------------------------------------------- one message *)
Record vknown (P : ep_cfg -> Prop) (c : ep_cfg) (D : N -> N -> Prop) (cl : bool) (s : ep) (id : N) (m : minfo) (p : phase) : Prop := mkVknown {
  vk_inv : vinv P c D cl id m (tr_of id (e_trace s)) p;
  vk_phase : in_phase s id m p;
}.
Lemma vknown_tx P c D cl s id m p to h ies cb : vknown P c D cl s id m p -> In (OTx id to h ies cb) (e_trace s) ->
  mi_to m = to /\ mi_h m = h /\ mi_ies m = ies /\ mi_cb m = cb.
Proof.
  intros [[_ L _ _] _] H. apply (in_tr_of id) in H; [|cbn; apply N.eqb_refl]. destruct (L _ _ _ _ H) as (-> & -> & -> & ->). auto.
Qed.
Lemma vany_known time l s id : vrun (ep_create time) l = Ok s -> id < e_next s ->
  exists c m p, vknown (fun _ => True) c (D_le (e_now s)) true s id m p.
Proof.
  intros E Hid. assert (A : Vadv (fun _ => True) (D_le (e_now s)) true (ep_create time) s).
  { eapply vrun_adv; [apply wf_create|apply Forall_forall; intros; exact I|discriminate|exact E|apply N.le_refl]. }
  destruct (va_born _ _ _ _ _ A id (N.le_0_l _) Hid) as (c & m & p & _ & H1 & H2). exists c, m, p. split; assumption.
Qed.
Lemma vrun_wf time l s : vrun (ep_create time) l = Ok s -> WF s.
Proof.
  intros E. eapply (va_wf (fun _ => True) (D_le (e_now s)) true).
  eapply vrun_adv; [apply wf_create|apply Forall_forall; intros; exact I|discriminate|exact E|apply N.le_refl].
Qed.
Lemma given_fresh time before c ev after id s s1 s2 : vrun (ep_create time) before = Ok s1 -> (forall to h ies cb, ~ In (OTx id to h ies cb) (e_trace s1)) ->
  step c s1 ev = Ok s2 -> (exists to h ies cb, In (OTx id to h ies cb) (e_trace s2)) -> vrun s2 after = Ok s ->
  WF s1 /\ WF s2 /\ e_next s1 <= id /\ id < e_next s2 /\ vrun (ep_create time) (before ++ (c, ev) :: after) = Ok s.
Proof.
  intros E1 Hn E2 (to & h & ies & cb & Hin) E3. pose proof (vrun_wf _ _ _ E1) as W1.
  assert (W2 : WF s2).
  { apply (vrun_wf time (before ++ [(c, ev)])). rewrite vrun_app, E1. cbn. rewrite E2. reflexivity. }
  split; [exact W1|]. split; [exact W2|]. split; [|split].
  - destruct (N.lt_ge_cases id (e_next s1)) as [H|H]; [|exact H]. exfalso. destruct (vany_known _ _ _ _ E1 H) as (c0 & m & p & [[_ _ I _] _]).
    apply (Hn (mi_to m) (mi_h m) (mi_ies m) (mi_cb m)). exact (proj1 (in_tr_of id (OTx id (mi_to m) (mi_h m) (mi_ies m) (mi_cb m)) (e_trace s1) (N.eqb_refl _)) I).
  - eapply wf_about; [exact W2|exact Hin|cbn; apply N.eqb_refl].
  - rewrite vrun_app, E1. cbn. rewrite E2. exact E3.
Qed.
Lemma given_known (P : ep_cfg -> Prop) cl time before c ev after id s : given time before c ev after id s -> timers P ((c, ev) :: after) ->
  (cl = false -> vfree is_close ((c, ev) :: after)) -> exists m p, vknown P c (D_le (e_now s)) cl s id m p.
Proof.
  intros [(s1 & E1 & Hn & s2 & E2 & Hin & E3)] HP Hc. destruct (given_fresh _ _ _ _ _ _ _ _ _ E1 Hn E2 Hin E3) as (W1 & W2 & I1 & I2 & _).
  inversion HP as [|? ? P1 P2]; subst. cbn [fst] in P1.
  assert (Hc1 : cl = false -> event_free is_close ev) by (intros C; specialize (Hc C); inversion Hc; assumption).
  assert (Hc2 : cl = false -> vfree is_close after) by (intros C; specialize (Hc C); inversion Hc; assumption).
  pose proof (vrun_adv P cl after s2 s (e_now s) W2 P2 Hc2 E3 (N.le_refl _)) as A.
  assert (A0 : Adv c (D_le (e_now s)) cl s1 s2).
  { eapply step_adv; [exact W1|exact Hc1| |exact E2]. intros q Hq Hd. split; [exact Hd|].
    assert (B : Adv c (fun _ _ => True) cl s1 s2) by (eapply step_adv; [exact W1|exact Hc1|intros ? ? ?; exact I|exact E2]).
    pose proof (adv_now _ _ _ _ _ B). pose proof (va_now _ _ _ _ _ A). lia. }
  destruct (adv_born _ _ _ _ _ A0 id I1 I2) as (m & p & L & Hp). destruct (va_old _ _ _ _ _ A id m p I2 Hp) as (p' & L' & Hp').
  exists m, p'. split; [|exact Hp']. eapply vsteps_inv; [|exact L']. apply linv_vinv; [exact P1|]. apply life_inv. exact L.
Qed.
Lemma vprompt_app l1 : forall s s1 l2, vrun s l1 = Ok s1 -> vprompt s (l1 ++ l2) -> vprompt s l1 /\ vprompt s1 l2.
Proof.
  induction l1 as [|[c ev] l1 IH]; intros s s1 l2 E H; cbn in E.
  - injection E as <-. split; [exact I|exact H].
  - cbn [app vprompt] in H |- *. destruct (step c s ev) as [s2|e|u]; [|discriminate|discriminate]. cbn [bind] in E. destruct H as [H1 H2].
    destruct (IH _ _ _ E H2) as [A B]. auto.
Qed.
Lemma given_prompt (P : ep_cfg -> Prop) cl time before c ev after id s : given time before c ev after id s -> timers P ((c, ev) :: after) ->
  (cl = false -> vfree is_close ((c, ev) :: after)) -> vprompt (ep_create time) (before ++ (c, ev) :: after) ->
  exists m p, vknown P c (D_eq (e_now s)) cl s id m p /\ none_overdue s.
Proof.
  intros [(s1 & E1 & Hn & s2 & E2 & Hin & E3)] HP Hc Hq. destruct (given_fresh _ _ _ _ _ _ _ _ _ E1 Hn E2 Hin E3) as (W1 & W2 & I1 & I2 & _).
  inversion HP as [|? ? P1 P2]; subst. cbn [fst] in P1.
  assert (Hc1 : cl = false -> event_free is_close ev) by (intros C; specialize (Hc C); inversion Hc; assumption).
  assert (Hc2 : cl = false -> vfree is_close after) by (intros C; specialize (Hc C); inversion Hc; assumption).
  destruct (vprompt_app _ _ _ _ E1 Hq) as [Q1 Q2]. cbn [vprompt] in Q2. rewrite E2 in Q2. destruct Q2 as [Q2 Q3].
  destruct (vrun_prompt (fun _ => True) true before _ s1 (e_now s1) (wf_create time) (create_none_overdue time) Q1) as [_ O1];
    [apply Forall_forall; intros; exact I|discriminate|exact E1|apply N.le_refl|].
  pose proof (step_none_overdue _ _ _ _ O1 Q2 E2) as O2.
  destruct (vrun_prompt P cl after s2 s (e_now s) W2 O2 Q3 P2 Hc2 E3 (N.le_refl _)) as [A O3].
  assert (A0 : Adv c (D_eq (e_now s)) cl s1 s2).
  { eapply step_adv; [exact W1|exact Hc1| |exact E2]. intros q Hq' Hd. specialize (O1 q Hq').
    assert (B : Adv c (fun _ _ => True) cl s1 s2) by (eapply step_adv; [exact W1|exact Hc1|intros ? ? ?; exact I|exact E2]).
    pose proof (adv_now _ _ _ _ _ B). pose proof (va_now _ _ _ _ _ A). split; lia. }
  destruct (adv_born _ _ _ _ _ A0 id I1 I2) as (m & p & L & Hp). destruct (va_old _ _ _ _ _ A id m p I2 Hp) as (p' & L' & Hp').
  exists m, p'. split; [|exact O3]. split; [|exact Hp']. eapply vsteps_inv; [|exact L']. apply linv_vinv; [exact P1|]. apply life_inv. exact L.
Qed.

(* ---------------------------------------------------------------- what follows *)
Lemma vknown_obs P c D cl s id m p : vknown P c D cl s id m p ->
  match p with
  | PWait k dl => mi_resp m = false /\ c_n1 c <> 0 /\ c_t1 c <> 0 /\ k <= c_n1 c
      /\ obs_all id s = mkObs (1 + c_n1 c - k) 0 0 0 0 (c_n1 c - k)
      /\ (exists t l c', P c' /\ send_times id (e_trace s) = t :: l /\ dl = t + c_t1 c')
      /\ spaced (gap P D) 0 (send_times id (e_trace s)) /\ encoded c m
  | PCached dl => mi_resp m = true /\ c_n1 c <> 0 /\ c_t1 c <> 0 /\ n_fail (obs_all id s) = 0 /\ n_ok (obs_all id s) = 0
      /\ n_free (obs_all id s) = 0 /\ n_timer (obs_all id s) = 0
      /\ (exists t, first_send id (e_trace s) t /\ dl = t + c_keep c) /\ encoded c m
  | PGone =>
    if mi_resp m then
      n_fail (obs_all id s) = 0 /\ n_ok (obs_all id s) = 0 /\ n_free (obs_all id s) <= 1 /\ n_timer (obs_all id s) <= 1
      /\ (n_free (obs_all id s) = 0 -> (c_n1 c = 0 \/ c_t1 c = 0) /\ n_send (obs_all id s) = 1)
      /\ (n_timer (obs_all id s) = 1 -> exists t t', first_send id (e_trace s) t /\ In (OTimer id t') (e_trace s) /\ D (t + c_keep c) t')
      /\ (n_timer (obs_all id s) = 0 -> n_free (obs_all id s) = 0 \/ n_send (obs_all id s) = 0 \/ cl = true)
    else
      let cb := if mi_cb m then 1 else 0 in
      (c_n1 c = 0 \/ c_t1 c = 0) /\ obs_all id s = mkObs 1 0 cb 0 0 0
      \/ obs_all id s = mkObs 0 1 cb 0 1 0
      \/ c_n1 c <> 0 /\ c_t1 c <> 0 /\ spaced (gap P D) 0 (send_times id (e_trace s)) /\ encoded c m
         /\ exists k, k <= c_n1 c /\
           (obs_all id s = mkObs (1 + c_n1 c) 0 cb 0 1 (c_n1 c + 1)
            \/ k <> 0 /\ obs_all id s = mkObs (1 + c_n1 c - k) 1 cb 0 1 (c_n1 c - k + 1)
            \/ obs_all id s = mkObs (1 + c_n1 c - k) 0 0 cb 1 (c_n1 c - k)
            \/ cl = true /\ obs_all id s = mkObs (1 + c_n1 c - k) 0 0 0 1 (c_n1 c - k))
  end.
Proof.
  intros [[_ _ _ L] _]. unfold first_send in *. rewrite send_times_tr_of, obs_tr in L. destruct p as [k dl|dl|]; [exact L|exact L|].
  destruct (mi_resp m); [|exact L]. destruct L as (A & B & C & E & F & G & I). do 5 (split; [assumption|]). split; [|exact I].
  intros Ht. destruct (G Ht) as (t & t' & G1 & G2 & G3). exists t, t'. repeat split; try assumption.
  apply (proj1 (in_tr_of id _ _ (N.eqb_refl id : about id (OTimer id t') = true)) G2).
Qed.

Section Req.
Variables (P : ep_cfg -> Prop) (c : ep_cfg) (D : N -> N -> Prop) (cl : bool) (s : ep) (id : N) (m : minfo) (p : phase).
Hypothesis (K : vknown P c D cl s id m p) (R : mi_resp m = false).
Lemma vreq_sends : count (is_send id) (e_trace s) <= 1 + c_n1 c.
Proof.
  pose proof (vknown_obs _ _ _ _ _ _ _ _ K) as H. destruct p as [k dl|dl|].
  - destruct H as (_ & _ & _ & _ & H & _). obsfields. lia.
  - destruct H as (H & _). congruence.
  - rewrite R in H. destruct H as [(_ & H)|[H|(_ & _ & _ & _ & k & Hk & [H|[(_ & H)|[H|(_ & H)]]])]]; obsfields; lia.
Qed.
Lemma vreq_spaced : spaced (gap P D) 0 (send_times id (e_trace s)).
Proof.
  pose proof (vknown_obs _ _ _ _ _ _ _ _ K) as H. destruct p as [k dl|dl|].
  - tauto.
  - destruct H as (H & _). congruence.
  - rewrite R in H. destruct H as [(_ & H)|[H|(_ & _ & H & _)]]; [| |exact H]; unfold obs_all, obs_of in H; injection H as H _ _ _ _ _;
      rewrite <- send_times_len in H; destruct (send_times id (e_trace s)) as [|a [|b l]]; cbn; try exact I; rewrite ?lenN_cons in H; lia.
Qed.
Lemma vreq_fail_cb : c_n1 c <> 0 -> c_t1 c <> 0 -> count (is_resp_fail id) (e_trace s) <> 0 ->
  count (is_resp_fail id) (e_trace s) = 1 /\ count (is_resp_ok id) (e_trace s) = 0 /\
  (count (is_senderr id) (e_trace s) = 1
   \/ count (is_send id) (e_trace s) = 1 + c_n1 c /\ count (is_timer id) (e_trace s) = c_n1 c + 1).
Proof.
  intros Hn Ht Hf. pose proof (vknown_obs _ _ _ _ _ _ _ _ K) as H. destruct p as [k dl|dl|].
  - destruct H as (_ & _ & _ & _ & H & _). obsfields. congruence.
  - destruct H as (H & _). congruence.
  - rewrite R in H. destruct H as [(H & _)|[H|(_ & _ & _ & _ & k & Hk & [H|[(_ & H)|[H|(_ & H)]]])]]; [tauto|..];
      obsfields; destruct (mi_cb m); try congruence; repeat split; lia.
Qed.
Lemma vreq_timed_out : count (is_timer id) (e_trace s) = c_n1 c + 1 -> c_n1 c <> 0 -> c_t1 c <> 0 ->
  count (is_resp_fail id) (e_trace s) = (if mi_cb m then 1 else 0) /\ count (is_resp_ok id) (e_trace s) = 0
  /\ count (is_free id) (e_trace s) = 1 /\ has_id id (e_reqs s) = false.
Proof.
  intros Hc Hn Ht. pose proof (vknown_obs _ _ _ _ _ _ _ _ K) as H. pose proof (vk_phase _ _ _ _ _ _ _ _ K) as Q. destruct p as [k dl|dl|].
  - destruct H as (_ & _ & _ & _ & H & _). obsfields. lia.
  - destruct H as (H & _). congruence.
  - rewrite R in H. rewrite has_id_find. destruct Q as [Q _]. rewrite Q.
    destruct H as [(H & _)|[H|(_ & _ & _ & _ & k & Hk & [H|[(Hk0 & H)|[H|(_ & H)]]])]]; [tauto|..];
      obsfields; repeat split; lia.
Qed.
Lemma vreq_timers : count (is_timer id) (e_trace s) <= c_n1 c + 1.
Proof.
  pose proof (vknown_obs _ _ _ _ _ _ _ _ K) as H. destruct p as [k dl|dl|].
  - destruct H as (_ & _ & _ & _ & H & _). obsfields. lia.
  - destruct H as (H & _). congruence.
  - rewrite R in H. destruct H as [(_ & H)|[H|(_ & _ & _ & _ & k & Hk & [H|[(_ & H)|[H|(_ & H)]]])]]; obsfields; lia.
Qed.
Lemma vreq_resolved : cl = false -> c_n1 c <> 0 -> c_t1 c <> 0 ->
  has_id id (e_reqs s) = true /\ count (is_free id) (e_trace s) = 0 /\ count (is_resp_cb id) (e_trace s) = 0
  \/ has_id id (e_reqs s) = false /\ count (is_free id) (e_trace s) = 1 /\ count (is_resp_cb id) (e_trace s) = if mi_cb m then 1 else 0.
Proof.
  intros Hc Hn Ht. pose proof (vknown_obs _ _ _ _ _ _ _ _ K) as H. pose proof (vk_phase _ _ _ _ _ _ _ _ K) as Q. rewrite has_id_find, resp_cb_count. destruct p as [k dl|dl|].
  - left. destruct Q as [Q _]. rewrite Q. destruct H as (_ & _ & _ & _ & H & _). obsfields. repeat split; lia.
  - destruct H as (H & _). congruence.
  - right. destruct Q as [Q _]. rewrite Q. rewrite R in H.
    destruct H as [(H & _)|[H|(_ & _ & _ & _ & k & Hk & [H|[(Hk0 & H)|[H|(Hcl & H)]]])]]; [tauto|..]; try congruence; obsfields; repeat split; lia.
Qed.
Lemma vreq_pending : has_id id (e_reqs s) = true -> count (is_timer id) (e_trace s) <= c_n1 c
  /\ exists q t l c', P c' /\ In q (e_reqs s) /\ q_id q = id /\ send_times id (e_trace s) = t :: l /\ q_dl q = t + c_t1 c'.
Proof.
  rewrite has_id_find. pose proof (vknown_obs _ _ _ _ _ _ _ _ K) as H. pose proof (vk_phase _ _ _ _ _ _ _ _ K) as Q. destruct p as [k dl|dl|]; destruct Q as [Q Q2]; rewrite Q; try discriminate.
  intros _. destruct H as (_ & _ & _ & _ & L & (t & l & c' & Hc & Hl & Hd) & _). split; [obsfields; lia|]. apply find_id_some in Q. destruct Q as [Q _].
  eexists. exists t, l, c'. split; [exact Hc|]. split; [exact Q|]. cbn. repeat split; assumption.
Qed.
End Req.
Lemma vresp_cached P c D cl s id m p : vknown P c D cl s id m p -> mi_resp m = true -> c_n1 c <> 0 -> c_t1 c <> 0 ->
  count (is_free id) (e_trace s) = 0 -> exists t, p = PCached (t + c_keep c) /\ first_send id (e_trace s) t.
Proof.
  intros K R Hn Ht Hf. pose proof (vknown_obs _ _ _ _ _ _ _ _ K) as H. destruct p as [k dl|dl|].
  - destruct H as (H & _). congruence.
  - destruct H as (_ & _ & _ & _ & _ & _ & _ & (t & Ht0 & ->) & He). exists t. auto.
  - rewrite R in H. destruct H as (_ & _ & _ & _ & H & _). obsfields. specialize (H Hf). tauto.
Qed.
Lemma first_send_unique id tr t t' : first_send id tr t -> first_send id tr t' -> t = t'.
Proof. intros (l & H) (l' & H'). rewrite H in H'. apply app_inj_tail in H'. tauto. Qed.

(* ---------------------------------------------------------------- theorems *)
Lemma timers_any l : timers (fun _ => True) l.
Proof. apply Forall_forall. intros. exact I. Qed.
Lemma timers_self l : timers (fun c => In c (map fst l)) l.
Proof. apply Forall_forall. intros x H. apply in_map. exact H. Qed.
Theorem vary_transmissions time before c ev after id s to h ies cb : given time before c ev after id s -> In (OTx id to h ies cb) (e_trace s) ->
  is_response (hd_type h) = false ->
  count (is_send id) (e_trace s) <= 1 + c_n1 c
  /\ (forall lo, timers (fun x => lo <= c_t1 x) ((c, ev) :: after) -> spaced N.le lo (send_times id (e_trace s)))
  /\ exists bs, forall t to' bs', In (OSend (Some id) t to' bs') (e_trace s) -> to' = to /\ bs' = bs.
Proof.
  intros G Ht R. destruct (given_known _ true _ _ _ _ _ _ _ G (timers_any _) (fun C => match Bool.diff_true_false C with end)) as (m & p & K).
  destruct (vknown_tx _ _ _ _ _ _ _ _ _ _ _ _ K Ht) as (A & B & _ & _). rewrite <- B in R. split; [|split].
  - eapply vreq_sends; [exact K|exact R].
  - intros lo Hlo. clear K. destruct (given_known _ true _ _ _ _ _ _ _ G Hlo (fun C => match Bool.diff_true_false C with end)) as (m' & p' & K).
    destruct (vknown_tx _ _ _ _ _ _ _ _ _ _ _ _ K Ht) as (_ & B' & _ & _). rewrite B, <- B' in R.
    pose proof (vreq_spaced _ _ _ _ _ _ _ _ K R) as H. revert H. clear. generalize (send_times id (e_trace s)). intros l.
    induction l as [|x [|y l] IH]; cbn [spaced]; try tauto. intros [(c' & Hc & Hd & _) B]. split; [|apply IH; exact B]. lia.
  - exists (mi_bs m). intros t to' bs' Hin. destruct K as [[H _ _ _] _]. apply (in_tr_of id) in Hin; [|cbn; apply N.eqb_refl].
    destruct (H _ _ _ Hin) as (-> & -> & _). rewrite A. auto.
Qed.
Theorem vary_exact time before c ev after id s to h ies cb : given time before c ev after id s -> In (OTx id to h ies cb) (e_trace s) ->
  is_response (hd_type h) = false -> vprompt (ep_create time) (before ++ (c, ev) :: after) ->
  spaced (fun t t' => exists x, In x (map fst ((c, ev) :: after)) /\ t' = t + c_t1 x) 0 (send_times id (e_trace s)).
Proof.
  intros G Ht R Q. destruct (given_prompt _ true _ _ _ _ _ _ _ G (timers_self _) (fun C => match Bool.diff_true_false C with end) Q) as (m & p & K & _).
  destruct (vknown_tx _ _ _ _ _ _ _ _ _ _ _ _ K Ht) as (A & B & _ & _). rewrite <- B in R.
  eapply spaced_mono; [|eapply vreq_spaced; [exact K|exact R]]. intros a b (x & Hx & Hd & _). exists x. split; [exact Hx|exact Hd].
Qed.
Theorem vary_failure time before c ev after id s to h ies cb : given time before c ev after id s -> In (OTx id to h ies cb) (e_trace s) ->
  is_response (hd_type h) = false -> c_n1 c <> 0 -> c_t1 c <> 0 ->
  (count (is_resp_fail id) (e_trace s) <> 0 ->
     count (is_resp_fail id) (e_trace s) = 1 /\ count (is_resp_ok id) (e_trace s) = 0
     /\ (count (is_senderr id) (e_trace s) = 1
         \/ count (is_send id) (e_trace s) = 1 + c_n1 c /\ count (is_timer id) (e_trace s) = c_n1 c + 1))
  /\ (count (is_timer id) (e_trace s) = c_n1 c + 1 ->
     count (is_resp_fail id) (e_trace s) = (if cb then 1 else 0) /\ count (is_resp_ok id) (e_trace s) = 0
     /\ count (is_free id) (e_trace s) = 1 /\ has_id id (e_reqs s) = false).
Proof.
  intros G Ht R Hn H1. destruct (given_known _ true _ _ _ _ _ _ _ G (timers_any _) (fun C => match Bool.diff_true_false C with end)) as (m & p & K).
  destruct (vknown_tx _ _ _ _ _ _ _ _ _ _ _ _ K Ht) as (A & B & _ & <-). rewrite <- B in R. split.
  - eapply vreq_fail_cb; eassumption.
  - intros Hc. eapply vreq_timed_out; eassumption.
Qed.
Theorem vary_once time l s id : vrun (ep_create time) l = Ok s -> count (is_resp_cb id) (e_trace s) <= 1 /\ count (is_free id) (e_trace s) <= 1.
Proof.
  intros E. destruct (N.lt_ge_cases id (e_next s)) as [Hid|Hid].
  - destruct (vany_known _ _ _ _ E Hid) as (c & m & p & K). pose proof (vknown_obs _ _ _ _ _ _ _ _ K) as L. rewrite resp_cb_count. destruct p as [k dl|dl|].
    + destruct L as (_ & _ & _ & _ & L & _). obsfields. lia.
    + destruct L as (_ & _ & _ & A & B & C & _). obsfields. lia.
    + destruct (mi_resp m) eqn:R.
      * destruct L as (A & B & C & _). obsfields. lia.
      * destruct L as [(_ & L)|[L|(_ & _ & _ & _ & k & Hk & [L|[(Hk0 & L)|[L|(Hcl & L)]]])]]; obsfields; destruct (mi_cb m); lia.
  - pose proof (wf_new s (vrun_wf _ _ _ E) id Hid) as Hn. split; (rewrite <- (count_tr_of _ id), Hn; [unfold count; cbn; unfold lenN; cbn; lia|]);
    intros o; destruct o; cbn; congruence.
Qed.
Theorem vary_resolved time before c ev after id s to h ies cb : given time before c ev after id s -> In (OTx id to h ies cb) (e_trace s) ->
  is_response (hd_type h) = false -> c_n1 c <> 0 -> c_t1 c <> 0 -> vfree is_close ((c, ev) :: after) ->
  has_id id (e_reqs s) = true /\ count (is_free id) (e_trace s) = 0 /\ count (is_resp_cb id) (e_trace s) = 0
  \/ has_id id (e_reqs s) = false /\ count (is_free id) (e_trace s) = 1 /\ count (is_resp_cb id) (e_trace s) = if cb then 1 else 0.
Proof.
  intros G Ht R Hn H1 Hf. destruct (given_known _ false _ _ _ _ _ _ _ G (timers_any _) (fun _ => Hf)) as (m & p & K).
  destruct (vknown_tx _ _ _ _ _ _ _ _ _ _ _ _ K Ht) as (A & B & _ & <-). rewrite <- B in R. eapply vreq_resolved; try eassumption. reflexivity.
Qed.
Theorem vary_timer time before c ev after id s to h ies cb : given time before c ev after id s -> In (OTx id to h ies cb) (e_trace s) ->
  is_response (hd_type h) = false ->
  count (is_timer id) (e_trace s) <= c_n1 c + 1
  /\ (has_id id (e_reqs s) = true -> count (is_timer id) (e_trace s) <= c_n1 c
       /\ exists q t l x, In x (map fst ((c, ev) :: after)) /\ In q (e_reqs s) /\ q_id q = id /\ send_times id (e_trace s) = t :: l /\ q_dl q = t + c_t1 x).
Proof.
  intros G Ht R. destruct (given_known _ true _ _ _ _ _ _ _ G (timers_self _) (fun C => match Bool.diff_true_false C with end)) as (m & p & K).
  destruct (vknown_tx _ _ _ _ _ _ _ _ _ _ _ _ K Ht) as (A & B & _ & _). rewrite <- B in R. split.
  - eapply vreq_timers; [exact K|exact R].
  - intros Hp. exact (vreq_pending _ _ _ _ _ _ _ _ K Hp).
Qed.
Lemma spaced_within hi l : forall t t0 l1 l2, spaced (fun a b => b <= a + hi) 0 l -> l = t :: l1 -> l = l2 ++ [t0] -> t <= t0 + (lenN l - 1) * hi.
Proof.
  induction l as [|x [|y l] IH]; intros t t0 l1 l2 Hs E1 E2; [discriminate|..].
  - destruct l2 as [|z [|]]; try discriminate. cbn in E2. injection E1 as ->. injection E2 as ->. change (lenN [t0]) with 1. lia.
  - destruct Hs as [Hx Hs]. injection E1 as -> <-. destruct l2 as [|z l2]; [discriminate|]. injection E2 as <- E2.
    pose proof (IH y t0 l l2 Hs eq_refl E2) as Hy. rewrite !lenN_cons in *.
    replace (1 + (1 + lenN l) - 1) with (1 + (1 + lenN l - 1)) by lia. rewrite N.mul_add_distr_r. lia.
Qed.
Theorem vary_in_time time before c ev after id s to h ies cb hi : given time before c ev after id s -> In (OTx id to h ies cb) (e_trace s) ->
  is_response (hd_type h) = false -> vprompt (ep_create time) (before ++ (c, ev) :: after) -> timers (fun x => c_t1 x <= hi) ((c, ev) :: after) ->
  has_id id (e_reqs s) = true -> exists t0, first_send id (e_trace s) t0 /\ e_now s <= t0 + (c_n1 c + 1) * hi.
Proof.
  intros G Ht R Q Hhi Hp. destruct (given_prompt _ true _ _ _ _ _ _ _ G Hhi (fun C => match Bool.diff_true_false C with end) Q) as (m & p & K & Ho).
  destruct (vknown_tx _ _ _ _ _ _ _ _ _ _ _ _ K Ht) as (_ & B & _ & _). rewrite <- B in R.
  destruct (vreq_pending _ _ _ _ _ _ _ _ K Hp) as (_ & q & t & l & c' & Hc & Hq & _ & Hl & Hd).
  assert (Hs : spaced (fun a b => b <= a + hi) 0 (send_times id (e_trace s))).
  { eapply spaced_mono; [|eapply vreq_spaced; [exact K|exact R]]. intros a b (x & Hx & Hy & _). lia. }
  pose proof (vreq_sends _ _ _ _ _ _ _ _ K R) as Hn. rewrite <- send_times_len in Hn.
  assert (exists t0 l2, send_times id (e_trace s) = l2 ++ [t0]) as (t0 & l2 & E2).
  { rewrite Hl. destruct (exists_last (l := t :: l)) as (l2 & t0 & ->); [discriminate|]. eauto. }
  exists t0. split; [exists l2; exact E2|]. pose proof (spaced_within _ _ _ _ _ _ Hs Hl E2) as Hx.
  assert (Hov : e_now s <= q_dl q) by (apply Ho, in_app_iff; tauto).
  assert (Hge : 1 <= lenN (send_times id (e_trace s))) by (rewrite Hl, lenN_cons; lia).
  revert Hn Hx Hge. generalize (lenN (send_times id (e_trace s))). intros n Hn Hx Hge.
  assert (n * hi <= (c_n1 c + 1) * hi) by (apply N.mul_le_mono_r; lia).
  assert ((n - 1) * hi + hi = n * hi) by (replace n with ((n - 1) + 1) at 2 by lia; rewrite N.mul_add_distr_r; lia). lia.
Qed.
Theorem vary_response time before c ev after id s to h ies cb t0 : given time before c ev after id s -> In (OTx id to h ies cb) (e_trace s) ->
  is_response (hd_type h) = true -> c_n1 c <> 0 -> c_t1 c <> 0 -> vfree is_close ((c, ev) :: after) -> first_send id (e_trace s) t0 ->
  (e_now s < t0 + c_keep c -> count (is_free id) (e_trace s) = 0 /\ has_id id (e_resps s) = true)
  /\ (vprompt (ep_create time) (before ++ (c, ev) :: after) -> t0 + c_keep c < e_now s -> count (is_free id) (e_trace s) = 1).
Proof.
  intros G Ht R Hn H1 Hf Hs. split.
  - intros Hlt. destruct (given_known _ false _ _ _ _ _ _ _ G (timers_any _) (fun _ => Hf)) as (m & p & K).
    destruct (vknown_tx _ _ _ _ _ _ _ _ _ _ _ _ K Ht) as (_ & B & _ & _). rewrite <- B in R. fold (mi_resp m) in R. pose proof (vknown_obs _ _ _ _ _ _ _ _ K) as L.
    pose proof (vk_phase _ _ _ _ _ _ _ _ K) as Q. destruct p as [k dl|dl|].
    + destruct L as (L & _). congruence.
    + destruct L as (_ & _ & _ & _ & _ & L & _). obsfields. split; [exact L|]. rewrite has_id_find. destruct Q as [_ ->]. reflexivity.
    + exfalso. rewrite R in L. destruct L as (_ & _ & L1 & L2 & L3 & L4 & L5). obsfields.
      assert (T : count (is_timer id) (e_trace s) = 0 \/ count (is_timer id) (e_trace s) = 1) by lia. destruct T as [T|T].
      * destruct (L5 T) as [X|[X|X]]; [destruct (L3 X) as [[?|?] _]; contradiction| |discriminate].
        rewrite <- send_times_len in X. destruct Hs as (l & Hs). rewrite Hs, lenN_app in X. change (lenN [t0]) with 1 in X. lia.
      * destruct (L4 T) as (t & t' & F & _ & X & Y). rewrite (first_send_unique _ _ _ _ Hs F) in Hlt. lia.
  - intros Q Hlt. destruct (given_prompt _ false _ _ _ _ _ _ _ G (timers_any _) (fun _ => Hf) Q) as (m & p & K & Ho).
    destruct (vknown_tx _ _ _ _ _ _ _ _ _ _ _ _ K Ht) as (_ & B & _ & _). rewrite <- B in R. fold (mi_resp m) in R.
    destruct (N.eq_dec (count (is_free id) (e_trace s)) 0) as [Hz|Hz].
    + exfalso. destruct (vresp_cached _ _ _ _ _ _ _ _ K R Hn H1 Hz) as (t & -> & F). pose proof (vk_phase _ _ _ _ _ _ _ _ K) as [_ Q2].
      apply find_id_some in Q2. destruct Q2 as [Q2 _]. specialize (Ho _ ltac:(apply in_app_iff; right; exact Q2)). cbn in Ho.
      rewrite (first_send_unique _ _ _ _ Hs F) in Hlt. lia.
    + pose proof (vknown_obs _ _ _ _ _ _ _ _ K) as L. destruct p as [k dl|dl|].
      * destruct L as (L & _). congruence.
      * destruct L as (_ & _ & _ & _ & _ & L & _). obsfields. congruence.
      * rewrite R in L. destruct L as (_ & _ & L & _). obsfields. lia.
Qed.
Theorem vary_total time l : Forall (fun x => sane (fst x) (snd x)) l -> exists s, vrun (ep_create time) l = Ok s.
Proof.
  intros H. assert (G : forall s, WF s -> exists s', vrun s l = Ok s').
  { induction H as [|[c ev] l H1 H IH]; intros s W; [exists s; reflexivity|]. cbn [fst snd] in H1. destruct (step_total c s ev W H1) as (s1 & E1). cbn [vrun]. rewrite E1. cbn [bind].
    apply IH. eapply (adv_wf c (fun _ _ => True) true). eapply step_adv; [exact W|discriminate|intros ? ? ?; exact I|exact E1]. }
  apply G. apply wf_create.
Qed.
Lemma vrun_ext l : forall s s', vfree is_set_seq l -> vrun s l = Ok s' -> ext (fun _ => True) true false s s'.
Proof.
  induction l as [|[c ev] l IH]; intros s s' Hq E; cbn in E; [injection E as <-; apply ext_refl|]. inv_bind E. inversion Hq; subst.
  eapply ext_trans; [eapply step_ext; [discriminate|intros _; eassumption|eassumption]|]. apply IH; assumption.
Qed.
Theorem vary_draws s l s' new : vrun s l = Ok s' -> vfree is_set_seq l -> e_trace s' = new ++ e_trace s ->
  N.of_nat (length (draws new)) <= 2 ^ 24 - 1 -> forall x y a, In (OSeq x a) new -> In (OSeq y a) new -> x = y.
Proof.
  intros E Hf Ht Hn x y a Hx Hy. destruct (vrun_ext l s s' Hf E) as [(n & A & _ & B) _].
  destruct (B eq_refl) as [B1 _]. rewrite A in Ht. apply app_inv_tail in Ht. subst n.
  eapply nodup_snd; [|apply in_draws; exact Hx|apply in_draws; exact Hy]. rewrite B1. apply iters_nodup. assumption.
Qed.

(* ---------------------------------------------------------------- when the timer is due *)
Lemma lsteps_due c D cl id m tr p tr' p' : lsteps c D cl id m tr p tr' p' -> forall k' dl', p' = PWait k' dl' ->
  (send_times id tr' = send_times id tr /\ p = p') \/ exists t, send_times id tr' = t :: tl (send_times id tr') /\ dl' = t + c_t1 c.
Proof.
  intros L. induction L as [|tr1 p1 tr2 p2 L IH S]; intros k' dl' E; [left; auto|]. destruct S; try discriminate E.
  right. injection E as <- <-. exists t. cbn. rewrite N.eqb_refl. auto.
Qed.
Lemma life_due c D cl id m tr k dl : life c D cl id m tr (PWait k dl) -> exists t, send_times id tr = t :: tl (send_times id tr) /\ dl = t + c_t1 c.
Proof.
  intros (tr0 & p0 & B & L). destruct (lsteps_due _ _ _ _ _ _ _ _ _ L _ _ eq_refl) as [[E ->]|H]; [|exact H].
  inversion B as [| |t Hn H1 R En|]; subst. exists t. rewrite E. cbn. rewrite N.eqb_refl. auto.
Qed.
Theorem vary_deadline time l s c ev s' q : vrun (ep_create time) l = Ok s -> step c s ev = Ok s' -> In q (e_reqs s') ->
  (exists q0, In q0 (e_reqs s) /\ q_id q0 = q_id q /\ q_dl q0 = q_dl q /\ send_times (q_id q) (e_trace s') = send_times (q_id q) (e_trace s))
  \/ exists t rest, send_times (q_id q) (e_trace s') = t :: rest /\ q_dl q = t + c_t1 c.
Proof.
  intros E1 E2 Hq. pose proof (vrun_wf _ _ _ E1) as W.
  assert (A : Adv c (fun _ _ => True) true s s') by (eapply step_adv; [exact W|discriminate|intros ? ? ?; exact I|exact E2]).
  pose proof (adv_wf _ _ _ _ _ A) as W'.
  assert (Hid : q_id q < e_next s') by (apply (wf_lt s' W'), in_app_iff; tauto).
  assert (Fq : find_id (q_id q) (e_reqs s') = Some q).
  { apply find_id_nodup; [|exact Hq]. pose proof (wf_nodup s' W') as Hn. rewrite map_app in Hn. revert Hn. clear.
    generalize (map q_id (e_resps s')). induction (map q_id (e_reqs s')) as [|x l IH]; intros l2 H; [constructor|]. cbn in H. inversion H; subst.
    constructor; [|eapply IH; eassumption]. intros C. apply H2. apply in_app_iff. tauto. }
  destruct (N.lt_ge_cases (q_id q) (e_next s)) as [Ho|Ho].
  - destruct (vany_known _ _ _ _ E1 Ho) as (c0 & m & p & K). pose proof (vk_phase _ _ _ _ _ _ _ _ K) as Hp.
    destruct (adv_old _ _ _ _ _ A _ m p Ho Hp) as (p' & L & Hp'). destruct p' as [k dl|dl|]; destruct Hp' as [Q1 Q2]; rewrite Fq in Q1; try discriminate.
    injection Q1 as Eq. destruct (lsteps_due _ _ _ _ _ _ _ _ _ L _ _ eq_refl) as [[X ->]|(t & X & Y)]; rewrite ?send_times_tr_of in X.
    + left. destruct Hp as [Hp _]. apply find_id_some in Hp. destruct Hp as [Hp _]. exists (mkQe (q_id q) (mi_to m) (mi_hdr m) (mi_bs m) (mi_cb m) k dl). split; [exact Hp|]. split; [reflexivity|]. split; [rewrite Eq; reflexivity|exact X].
    + right. exists t. eexists. split; [exact X|]. rewrite Eq. cbn. exact Y.
  - right. destruct (adv_born _ _ _ _ _ A _ Ho Hid) as (m & p & L & Hp). destruct p as [k dl|dl|]; destruct Hp as [Q1 Q2]; rewrite Fq in Q1; try discriminate.
    injection Q1 as Eq. destruct (life_due _ _ _ _ _ _ _ _ L) as (t & X & Y). rewrite send_times_tr_of in X. exists t. eexists. split; [exact X|]. rewrite Eq. cbn. exact Y.
Qed.

(* ---------------------------------------------------------------- receiving *)
Lemma vtx_known time l s id to h ies cb : vrun (ep_create time) l = Ok s -> timers (fun x => c_n1 x <> 0 /\ c_t1 x <> 0) l -> In (OTx id to h ies cb) (e_trace s) ->
  exists c m p, c_n1 c <> 0 /\ c_t1 c <> 0 /\ vknown (fun _ => True) c (D_le (e_now s)) true s id m p /\ mi_to m = to /\ mi_h m = h.
Proof.
  intros E Hl Hin. assert (Hid : id < e_next s) by (eapply wf_about; [eapply vrun_wf; exact E|exact Hin|cbn; apply N.eqb_refl]).
  assert (A : Vadv (fun x => c_n1 x <> 0 /\ c_t1 x <> 0) (D_le (e_now s)) true (ep_create time) s).
  { eapply vrun_adv; [apply wf_create|exact Hl|discriminate|exact E|apply N.le_refl]. }
  destruct (va_born _ _ _ _ _ A id (N.le_0_l _) Hid) as (c & m & p & [Hn H1] & Hi & Hp). exists c, m, p. split; [exact Hn|]. split; [exact H1|].
  assert (K0 : vknown (fun x => c_n1 x <> 0 /\ c_t1 x <> 0) c (D_le (e_now s)) true s id m p) by (split; assumption).
  destruct (vknown_tx _ _ _ _ _ _ _ _ _ _ _ _ K0 Hin) as (X & Y & _). split; [|auto]. split; [|exact Hp].
  destruct Hi as [I1 I2 I3 I4]. constructor; try assumption. revert I4. clear.
  assert (G : forall l, spaced (gap (fun x => c_n1 x <> 0 /\ c_t1 x <> 0) (D_le (e_now s))) 0 l -> spaced (gap (fun _ => True) (D_le (e_now s))) 0 l).
  { intros l. apply spaced_mono. intros a b (x & _ & Hx). exists x. auto. }
  destruct p as [k dl|dl|]; [| auto |].
  - intros (A & B & C & F & H & (t & l & x & _ & J & K) & L & M). do 5 (split; [assumption|]). split; [exists t, l, x; auto|]. split; [apply G; exact L|exact M].
  - destruct (mi_resp m); [auto|]. intros [H|[H|(A & B & C & F)]]; [left; exact H|right; left; exact H|right; right]. split; [exact A|]. split; [exact B|]. split; [apply G; exact C|exact F].
Qed.
Lemma vkept_entry time l s id nr : vrun (ep_create time) l = Ok s -> timers (fun x => c_n1 x <> 0 /\ c_t1 x <> 0) l -> kept_response s id nr ->
  exists q, In q (e_resps s) /\ q_id q = id /\ hd_seq (q_h q) = nr /\ is_response (hd_type (q_h q)) = true.
Proof.
  intros E Hl (to & rh & ries & cb & Htx & R & Hs & Hf).
  destruct (vtx_known _ _ _ _ _ _ _ _ E Hl Htx) as (c & m & p & Hn & H1 & K & A & B). rewrite <- B in R.
  destruct (vresp_cached _ _ _ _ _ _ _ _ K R Hn H1 Hf) as (t & -> & _). pose proof (vknown_obs _ _ _ _ _ _ _ _ K) as (_ & _ & _ & _ & _ & _ & _ & _ & [_ En]).
  destruct (vk_phase _ _ _ _ _ _ _ _ K) as [_ Q]. apply find_id_some in Q. destruct Q as [Q _]. eexists. split; [exact Q|]. cbn.
  split; [reflexivity|]. split; [|exact R]. rewrite En by exact R. rewrite B. exact Hs.
Qed.
Lemma ventry_kept time l s q : vrun (ep_create time) l = Ok s -> In q (e_resps s) ->
  kept_response s (q_id q) (hd_seq (q_h q)) /\ exists t, In (OSend (Some (q_id q)) t (q_remote q) (q_enc q)) (e_trace s).
Proof.
  intros H Hq. pose proof (vrun_wf _ _ _ H) as W. assert (Hid : q_id q < e_next s) by (apply (wf_lt s W), in_app_iff; tauto).
  destruct (vany_known _ _ _ _ H Hid) as (c & m & p & K).
  destruct (phase_resp s _ m p q W (vk_phase _ _ _ _ _ _ _ _ K) (wf_ent_resp DT s q W Hq)) as (-> & Eq & R).
  pose proof (vknown_obs _ _ _ _ _ _ _ _ K) as (_ & _ & _ & _ & _ & Fr0 & _ & (t & (l0 & Hl) & _) & En). split.
  - exists (mi_to m), (mi_h m), (mi_ies m), (mi_cb m). split; [|split; [exact R|split]].
    + apply (proj1 (in_tr_of (q_id q) _ _ (N.eqb_refl _ : about (q_id q) (OTx (q_id q) _ _ _ _) = true))). exact (vi_txin _ _ _ _ _ _ _ _ (vk_inv _ _ _ _ _ _ _ _ K)).
    + rewrite Eq. cbn. destruct En as [_ En]. symmetry. apply En. exact R.
    + exact Fr0.
  - exists t. assert (Hin : exists to bs, In (OSend (Some (q_id q)) t to bs) (e_trace s)).
    { apply send_times_in. rewrite Hl. apply in_app_iff. right. left. reflexivity. }
    destruct Hin as (to & bs & Hin).
    pose proof (vi_sends _ _ _ _ _ _ _ _ (vk_inv _ _ _ _ _ _ _ _ K)) as Hok. pose proof Hin as Hin'. apply (in_tr_of (q_id q)) in Hin'; [|cbn; apply N.eqb_refl].
    destruct (Hok _ _ _ Hin') as (-> & -> & _). rewrite Eq. cbn. exact Hin.
Qed.
Theorem vary_cached time l c s from h ies v s' id : vrun (ep_create time) l = Ok s -> timers (fun x => c_n1 x <> 0 /\ c_t1 x <> 0) l ->
  is_response (hd_type h) = false -> kept_response s id (hd_seq h) -> handle_rx c s from h ies v = Ok s' ->
  count is_dispatch (e_trace s') = count is_dispatch (e_trace s)
  /\ (e_open s = true -> v_resend v = true -> calls_have is_close (v_ctx v) = false ->
      exists id1 t to bs rest, e_trace s' = OSend (Some id1) (e_now s) to bs :: rest /\ In (OSend (Some id1) t to bs) (e_trace s)
        /\ kept_response s id1 (hd_seq h) /\ ((forall i, kept_response s i (hd_seq h) -> i = id) -> id1 = id)).
Proof.
  intros H Hl R Hk E. pose proof (vrun_wf _ _ _ H) as W. destruct (vkept_entry _ _ _ _ _ H Hl Hk) as (q0 & Q1 & Q2 & Q3 & Q4).
  destruct (queue_find (e_resps s) h) as [q|] eqn:Q.
  2:{ exfalso. apply (queue_find_none _ _ _ Q Q1); [rewrite R; exact Q4|exact Q3]. }
  destruct (rx_req_matched c s from h ies v s' W E q R Q) as (s2 & new & A1 & A2 & A3 & A4 & ->).
  destruct (queue_find_some _ _ _ Q) as (P1 & P2 & P3). destruct (ventry_kept _ _ _ q H P1) as [Kq (t & Hs)]. rewrite P3 in Kq. split.
  - unfold send_data. destruct (e_open s2 && v_resend v); cbn [fst e_trace log]; rewrite count_cons; cbn [is_dispatch]; rewrite A1, count_dispatch_calls by assumption; lia.
  - intros Ho Hv Hc. exists (q_id q), t, (q_remote q), (q_enc q), (e_trace s2). split; [|split; [exact Hs|split; [exact Kq|intros U; exact (U _ Kq)]]].
    unfold send_data. rewrite (A4 Hc), Ho, Hv, A3. reflexivity.
Qed.
Theorem vary_dispatched time l c s from h ies v s' : vrun (ep_create time) l = Ok s -> env_has is_close v = false -> is_response (hd_type h) = false ->
  (forall id, ~ kept_response s id (hd_seq h)) -> handle_rx c s from h ies v = Ok s' ->
  exists a b, e_trace s' = a ++ ODispatch from h ies None :: b ++ e_trace s /\ count is_dispatch (a ++ b) = 0.
Proof.
  intros H Hc R Hk E. pose proof (vrun_wf _ _ _ H) as W. destruct (queue_find (e_resps s) h) as [q|] eqn:Q.
  { exfalso. destruct (queue_find_some _ _ _ Q) as (P1 & P2 & P3). destruct (ventry_kept _ _ _ q H P1) as [Kq _]. rewrite P3 in Kq. exact (Hk _ Kq). }
  destruct (rx_unmatched c s from h ies v s' W E Hc) as (F & a & b & T & A & B); [rewrite R; exact Q|]. exists a, b. split; [exact T|].
  rewrite count_dispatch_calls by exact A. rewrite <- (app_nil_r b), count_dispatch_calls by exact B. reflexivity.
Qed.
Theorem vary_completes time l c s from h ies v s' q : vrun (ep_create time) l = Ok s -> env_has is_close v = false -> is_response (hd_type h) = true ->
  handle_rx c s from h ies v = Ok s' -> In q (e_reqs s) -> hd_seq (q_h q) = hd_seq h ->
  (forall q', In q' (e_reqs s) -> hd_seq (q_h q') = hd_seq h -> q' = q) ->
  tr_of (q_id q) (e_trace s') = OFree (q_id q) :: (if negb (q_cb q) || v_rc1 v then [ODispatch from h ies (Some (q_id q))] else [])
    ++ (if q_cb q then [OResp (q_id q) (Some (h, ies))] else []) ++ tr_of (q_id q) (e_trace s)
  /\ has_id (q_id q) (e_reqs s') = false
  /\ forall id, id < e_next s -> id <> q_id q -> tr_of id (e_trace s') = tr_of id (e_trace s)
       /\ find_id id (e_reqs s') = find_id id (e_reqs s) /\ find_id id (e_resps s') = find_id id (e_resps s).
Proof.
  intros H Hc R E Hq Hs Hu. pose proof (vrun_wf _ _ _ H) as W. destruct (queue_find (e_reqs s) h) as [q1|] eqn:Q.
  2:{ exfalso. apply (queue_find_none _ _ _ Q Hq); [rewrite R; exact (wf_rq s W q Hq)|exact Hs]. }
  destruct (queue_find_some _ _ _ Q) as (P1 & P2 & P3). pose proof (Hu q1 P1 P3) as ->.
  destruct (rx_resp_matched c s from h ies v s' W E q Hc R Q) as (F & En & T). split; [exact T|]. split.
  - rewrite has_id_find. unfold ent in En. injection En as -> _. reflexivity.
  - intros id Hid Hne. destruct (fr_keep _ _ _ _ id F Hid) as [A B]; [congruence|]. unfold ent in B. injection B as B1 B2. auto.
Qed.
