(* CpPeerProps.v -- lemmas behind the property theorems C42 .. C44 *)
From Verif Require Import Base BaseProofs GtlvModel DecEncModel IesModel IesProofs TablesModel MsgModel EndpointModel EndpointSpec
  EndpointProofs EndpointRun EndpointLife EndpointFinal EndpointProps EndpointExt EndpointProps2 EndpointProps3 CpPeerModel CpPeerSpec CpPeerProofs.

Lemma exec_inv c k s l p : execution c k s l p -> pinv k l p.
Proof. intros (R & E & H). exact (pinv_all c k s l R E l [] p (eq_sym (app_nil_r l)) H). Qed.

(* ---------------------------------------------------------------- C42 *)
Theorem peer_transitions c k s l p : execution c k s l p ->
  leads_to (p_obs p) (p_state p)
  /\ (forall a b, In (PoState a b) (p_obs p) -> In (a, b) procedure)
  /\ (forall a b, In (PoRefused a b) (p_obs p) -> a = PsWaitRetry /\ b = PsWaitRetry /\ exists id, In (VOwnTx id) l /\ In (VEp (ORet id false)) l)
  /\ (forall st e, ~ In (PoEvRefused st e) (p_obs p)) /\ (forall e, ~ In (PoErr e) (p_obs p)) /\ ~ In PoTerm (p_obs p)
  /\ In (p_state p) [PsDisabled; PsWaitAssoc; PsWaitRetry; PsAssociated].
Proof.
  intros H. destruct (exec_inv _ _ _ _ _ H) as [A B C D G]. rewrite Forall_forall in C.
  split; [exact D|]. split; [intros a b X; exact (C _ X)|]. split; [intros a b X; destruct (C _ X) as [-> ->]; split; [reflexivity|split; [reflexivity|exact (G _ _ X)]]|].
  split; [intros st e X; exact (C _ X)|]. split; [intros e X; exact (C _ X)|]. split; [intros X; exact (C _ X)|].
  cbn. assert (K : forall i, cur k l p i -> p_state p = PsWaitAssoc \/ p_state p = PsWaitRetry \/ p_state p = PsAssociated).
  { intros i [(_ & X & _)|(r & _ & X)]; [auto|destruct (accepts r); destruct X; auto]. }
  destruct (p_pc p); try (destruct B as (B & _); auto; fail).
  - destruct (p_ids p) as [|i is]; [destruct B; auto|]. destruct B as [_ B]. destruct (K _ B) as [X|[X|X]]; rewrite X; auto.
  - destruct (p_ids p) as [|i is]; [contradiction|]. destruct B as (_ & _ & B). destruct (K _ B) as [X|[X|X]]; rewrite X; auto.
Qed.

Lemma state_chg_null k to p : p_null (state_chg k to p) = p_null p.
Proof. unfold state_chg, onenter, onleave, call_assoc_cb. destruct p as [st ti cb pc is nu ob]. destruct st, to, cb; reflexivity. Qed.
Lemma p_resp_null k id r p p' : p_resp k id r p = POk p' -> p_null p' = p_null p.
Proof.
  unfold p_resp. destruct (existsb _ (p_ids p)); [|intros [= <-]; reflexivity]. rewrite on_assoc_resp_eq. destruct (existsb _ _); [discriminate|].
  destruct (accepts r); [|intros [= <-]; apply state_chg_null]. unfold dispatch. destruct (in_ok _ _); cbn [negb]; [|intros [= <-]; reflexivity].
  destruct (p_state p); try discriminate. intros [= <-]. apply state_chg_null.
Qed.
Lemma p_step_null k p v p' : p_step k p v = POk p' -> v <> VInvalidate -> p_null p' = p_null p.
Proof.
  unfold p_step. intros H N. destruct (p_pc p) as [| |m0|m0| |i0], v as [|b| | |m rx|m|m|m|m|id|o]; try discriminate; try (injection H as <-; reflexivity); try congruence.
  - injection H as <-. unfold associate. destruct (p_state p); try reflexivity; apply state_chg_null.
  - destruct (p_timer p); [|discriminate]. injection H as <-. unfold timer_cb. cbn [p_state]. destruct (p_state p); try reflexivity; rewrite state_chg_null; reflexivity.
  - destruct o; try (injection H as <-; reflexivity). exact (p_resp_null _ _ _ _ _ H).
  - destruct rx; [discriminate|]. injection H as <-. reflexivity.
  - destruct (_ =? _); [|discriminate]. injection H as <-. reflexivity.
  - destruct (_ =? _); [|discriminate]. injection H as <-. reflexivity.
  - destruct o; try (injection H as <-; reflexivity); [exact (p_resp_null _ _ _ _ _ H)|].
    destruct (_ =? _); [|injection H as <-; reflexivity]. destruct ok; injection H as <-; try reflexivity; rewrite state_chg_null; reflexivity.
Qed.
Lemma p_run_null k l : forall p p', p_run k p l = POk p' -> ~ In VInvalidate l -> p_null p' = p_null p.
Proof.
  induction l as [|v l IH]; intros p p' H N; [injection H as <-; reflexivity|]. cbn [p_run] in H. destruct (p_step k p v) as [p1| |] eqn:E; try discriminate.
  rewrite (IH p1 p' H (fun X => N (or_intror X))). apply (p_step_null k p v p1 E). intros ->. apply N. left. reflexivity.
Qed.
Lemma p_step_ub k p v u : p_step k p v = PUB u -> u = NullDeref /\ p_null p <> [].
Proof.
  assert (G : forall id r, p_resp k id r p = PUB u -> u = NullDeref /\ p_null p <> []).
  { intros id r. unfold p_resp. destruct (existsb _ (p_ids p)); [|discriminate]. rewrite on_assoc_resp_eq. destruct (existsb _ (p_null p)) eqn:E.
    - intros [= <-]. split; [reflexivity|]. intros X. rewrite X in E. discriminate.
    - destruct (accepts r); [|discriminate]. unfold dispatch. destruct (p_state p); discriminate. }
  unfold p_step. intros H. destruct (p_pc p) as [| |m0|m0| |i0], v as [|b| | |m rx|m|m|m|m|id|o]; try discriminate.
  - destruct (p_timer p); discriminate.
  - destruct o; try discriminate. exact (G _ _ H).
  - destruct rx; discriminate.
  - destruct (_ =? _); discriminate.
  - destruct (_ =? _); discriminate.
  - destruct o; try discriminate; [exact (G _ _ H)|]. destruct (_ =? _); [|discriminate]. destruct ok; discriminate.
Qed.
Theorem peer_no_ub k l : ~ In VInvalidate l -> forall u, p_run k peer_alloc l <> PUB u.
Proof.
  intros N u. induction l as [|v l IH] using rev_ind; [discriminate|]. rewrite p_run_app. intros H.
  assert (N' : ~ In VInvalidate l) by (intros X; apply N; rewrite in_app_iff; auto).
  destruct (p_run k peer_alloc l) as [p| |u'] eqn:E; [|discriminate|injection H as ->; exact (IH N' eq_refl)].
  cbn [p_run] in H. destruct (p_step k p v) as [p1| |u'] eqn:Es; try discriminate. apply p_step_ub in Es. destruct Es as [_ Es].
  apply Es. rewrite (p_run_null k l _ _ E N'). reflexivity.
Qed.

(* ---------------------------------------------------------------- C43 *)
Lemma associated_stays k p v p' : p_state p = PsAssociated -> p_timer p = None -> p_pc p = PcIdle \/ (exists j, p_pc p = PcIn j) -> p_step k p v = POk p' ->
  p_state p' = PsAssociated /\ p_timer p' = None /\ (p_pc p' = PcIdle \/ exists j, p_pc p' = PcIn j) /\ assoc_calls (p_obs p') = assoc_calls (p_obs p).
Proof.
  intros Hs Ht Hpc H.
  assert (G : forall id r, p_resp k id r p = POk p' -> p_state p' = PsAssociated /\ p_timer p' = None /\ p_pc p' = p_pc p /\ assoc_calls (p_obs p') = assoc_calls (p_obs p)).
  { intros id r. unfold p_resp. destruct (existsb _ (p_ids p)); [|intros [= <-]; auto]. rewrite on_assoc_resp_eq. destruct (existsb _ (p_null p)); [discriminate|].
    unfold dispatch, state_chg. rewrite Hs. cbn. destruct (accepts r); intros [= <-]; cbn; auto. }
  unfold p_step in H. destruct Hpc as [Hpc|(j & Hpc)]; rewrite Hpc in H.
  - destruct v as [|b| | |m rx|m|m|m|m|id|o]; try discriminate; try (injection H as <-; cbn; auto; fail).
    + injection H as <-. unfold associate. rewrite Hs. auto.
    + rewrite Ht in H. discriminate.
    + destruct o; try (injection H as <-; auto; fail). destruct (G _ _ H) as (A & B & C & D). rewrite C. auto.
  - destruct v as [|b| | |m rx|m|m|m|m|id|o]; try discriminate. destruct o; try (injection H as <-; eauto 6; fail).
    + destruct (G _ _ H) as (A & B & C & D). rewrite C. eauto 6.
    + destruct (_ =? _); [|injection H as <-; eauto 6]. destruct ok; injection H as <-; [cbn; auto|]. unfold state_chg. cbn [p_state set_pc]. rewrite Hs. cbn. auto.
Qed.
Lemma assoc_pc k l p : pinv k l p -> p_state p = PsAssociated -> p_timer p = None /\ (p_pc p = PcIdle \/ exists j, p_pc p = PcIn j).
Proof.
  intros [_ B _ _ _] Hs. destruct (p_pc p) eqn:Ep; try (destruct B as (B & _); congruence).
  - split; [|auto]. destruct (p_ids p) as [|i is]; [destruct B; congruence|]. destruct B as [_ [(_ & B & _)|(r & _ & B)]]; [congruence|]. destruct (accepts r); destruct B; [assumption|congruence].
  - split; [|eauto]. destruct (p_ids p) as [|i is]; [contradiction|]. destruct B as (_ & _ & B). destruct B as [(_ & B & _)|(r & _ & B)]; [congruence|]. destruct (accepts r); destruct B; [assumption|congruence].
Qed.
Theorem associated_for_ever c k s l p : execution c k s l p -> is_associated p = true -> forall l' p', p_run k p l' = POk p' ->
  is_associated p' = true /\ assoc_calls (p_obs p') = assoc_calls (p_obs p).
Proof.
  intros H Ha l'. assert (Hs : p_state p = PsAssociated) by (unfold is_associated in Ha; destruct (p_state p); congruence).
  destruct (assoc_pc _ _ _ (exec_inv _ _ _ _ _ H) Hs) as [Ht Hpc]. clear H Ha. revert p Hs Ht Hpc. induction l' as [|v l' IH]; intros p Hs Ht Hpc p' H.
  - injection H as <-. unfold is_associated. rewrite Hs. auto.
  - cbn [p_run] in H. destruct (p_step k p v) as [p1| |] eqn:E; try discriminate. destruct (associated_stays k p v p1 Hs Ht Hpc E) as (A & B & C & D).
    rewrite <- D. apply IH; assumption.
Qed.

Lemma state_chg_calls k to p : p_cb p = true -> p_state p <> PsAssociated -> (to = PsWaitAssoc \/ to = PsWaitRetry \/ to = PsAssociated) ->
  assoc_calls (p_obs p) = [] -> p_cb (state_chg k to p) = true /\ assoc_calls (p_obs (state_chg k to p)) = if is_associated (state_chg k to p) then [true] else [].
Proof.
  destruct p as [st ti cb pc is nu ob]. cbn. intros -> Hs Hto Hc. unfold is_associated. destruct Hto as [-> | [-> | -> ]]; destruct st; try congruence; cbn; rewrite ?Hc; auto.
Qed.
Definition calls_ok (p : peer) : Prop := p_cb p = true /\ assoc_calls (p_obs p) = if is_associated p then [true] else [].
Lemma p_step_calls k l p v p' : pinv k l p -> calls_ok p -> is_set_cb v = false -> p_step k p v = POk p' -> calls_ok p'.
Proof.
  intros X [Hcb Hc] Hv H. destruct (is_associated p) eqn:Ha.
  { assert (Hs : p_state p = PsAssociated) by (unfold is_associated in Ha; destruct (p_state p); congruence).
    destruct (assoc_pc _ _ _ X Hs) as [Ht Hpc]. destruct (associated_stays k p v p' Hs Ht Hpc H) as (A & B & C & D).
    unfold calls_ok, is_associated. rewrite A, D, Hc. split; [|reflexivity].
    clear - H Hcb Hv Hs Hpc Ht. unfold p_step, p_resp in H. unfold state_chg, associate in H. rewrite Hs, Ht in H. destruct Hpc as [Hpc|(j & Hpc)]; rewrite Hpc in H.
    - destruct v as [|b| | |m rx|m|m|m|m|id|o]; try discriminate; try (injection H as <-; cbn; assumption).
      destruct o; try (injection H as <-; cbn; assumption). destruct (existsb _ _); [|injection H as <-; assumption]. rewrite on_assoc_resp_eq in H.
      destruct (existsb _ _); [discriminate|]. unfold dispatch, state_chg in H. rewrite Hs in H. destruct (accepts r); injection H as <-; exact Hcb.
    - destruct v as [|b| | |m rx|m|m|m|m|id|o]; try discriminate. destruct o; try (injection H as <-; assumption).
      + destruct (existsb _ _); [|injection H as <-; assumption]. rewrite on_assoc_resp_eq in H.
        destruct (existsb _ _); [discriminate|]. unfold dispatch, state_chg in H. rewrite Hs in H. destruct (accepts r); injection H as <-; exact Hcb.
      + destruct (_ =? _); [|injection H as <-; assumption]. destruct ok; injection H as <-; [exact Hcb|]. cbn. rewrite Hs. exact Hcb. }
  assert (Hs : p_state p <> PsAssociated) by (unfold is_associated in Ha; destruct (p_state p); congruence).
  assert (G : forall id r, p_resp k id r p = POk p' -> calls_ok p').
  { intros id r. unfold p_resp. destruct (existsb _ (p_ids p)); [|intros [= <-]; unfold calls_ok; rewrite Ha; auto]. rewrite on_assoc_resp_eq.
    destruct (existsb _ (p_null p)); [discriminate|]. destruct (accepts r); [|intros [= <-]; apply state_chg_calls; auto]. unfold dispatch.
    destruct (p_state p) eqn:Es; cbn [in_ok negb]; try congruence; intros [= <-]; try (unfold calls_ok, is_associated; cbn; rewrite Es; auto; fail). all: apply state_chg_calls; auto; congruence. }
  assert (S : calls_ok p) by (unfold calls_ok; rewrite Ha; auto).
  unfold p_step in H. destruct (p_pc p) as [| |m0|m0| |i0], v as [|b| | |m rx|m|m|m|m|id|o]; try discriminate; try (injection H as <-; exact S).
  - injection H as <-. unfold associate. destruct (p_state p) eqn:Es; try exact S; try (apply state_chg_calls; auto; congruence).
  - destruct (p_timer p); [|discriminate]. injection H as <-. unfold timer_cb. cbn [p_state]. destruct (p_state p) eqn:Es; try (unfold calls_ok, is_associated; cbn; auto; fail); try congruence.
    all: apply state_chg_calls; cbn; auto; congruence.
  - destruct o; try (injection H as <-; exact S). exact (G _ _ H).
  - destruct rx; [discriminate|]. injection H as <-. exact S.
  - destruct (_ =? _); [|discriminate]. injection H as <-. exact S.
  - destruct (_ =? _); [|discriminate]. injection H as <-. exact S.
  - destruct o; try (injection H as <-; exact S); [exact (G _ _ H)|].
    destruct (_ =? _); [|injection H as <-; exact S]. destruct ok; injection H as <-; [exact S|]. apply state_chg_calls; cbn; auto.
Qed.
Theorem assoc_cb_calls c k s l p : execution c k s (VSetCb true :: l) p -> forallb (fun v => negb (is_set_cb v)) l = true ->
  assoc_calls (p_obs p) = if is_associated p then [true] else [].
Proof.
  intros (R & E & H) Hl. enough (G : calls_ok p) by apply G. rewrite forallb_forall in Hl.
  assert (G : forall l1 l2 p, l = l1 ++ l2 -> p_run k peer_alloc (VSetCb true :: l1) = POk p -> calls_ok p).
  { intros l1. induction l1 as [|v l1 IH] using rev_ind; intros l2 q El Hq; [injection Hq as <-; split; reflexivity|].
    rewrite app_comm_cons in Hq. apply p_run_snoc in Hq. destruct Hq as (q1 & Hq1 & Hq2). rewrite <- app_assoc in El.
    eapply p_step_calls; [|eapply IH; [exact El|exact Hq1]| |exact Hq2].
    - eapply (pinv_all c k s _ R E (VSetCb true :: l1)); [|exact Hq1]. cbn [app]. f_equal. exact El.
    - specialize (Hl v). rewrite El, in_app_iff in Hl. cbn in Hl. destruct (is_set_cb v); [|reflexivity]. discriminate Hl. auto. }
  eapply (G l []); [symmetry; apply app_nil_r|exact H].
Qed.

(* any use of osmo_pfcp_cp_peer_set_associated_cb() *)
Lemma state_chg_cb k to p : p_cb (state_chg k to p) = p_cb p.
Proof. destruct p as [st ti cb pc is nu ob]. destruct st, to, cb; reflexivity. Qed.
Lemma dispatch_cb k e p p' : dispatch k e p = POk p' -> p_cb p' = p_cb p.
Proof.
  unfold dispatch. destruct (negb _); [intros [= <-]; reflexivity|]. destruct e, (p_state p); try discriminate; intros [= <-]; try reflexivity; apply state_chg_cb.
Qed.
Lemma p_step_cb k p v p' : p_step k p v = POk p' -> p_cb p' = match v with VSetCb b => b | _ => p_cb p end.
Proof.
  assert (G : forall id r, p_resp k id r p = POk p' -> p_cb p' = p_cb p).
  { intros id r. unfold p_resp. destruct (existsb _ (p_ids p)); [|intros [= <-]; reflexivity]. rewrite on_assoc_resp_eq. destruct (existsb _ (p_null p)); [discriminate|].
    destruct (accepts r); [apply dispatch_cb|intros [= <-]; apply state_chg_cb]. }
  unfold p_step. destruct (p_pc p) as [| |m0|m0| |i0], v as [|b| | |m rx|m|m|m|m|id|o]; try discriminate; intros H; try (injection H as <-; reflexivity).
  - injection H as <-. unfold associate. destruct (p_state p); try apply state_chg_cb; reflexivity.
  - destruct (p_timer p); [|discriminate]. injection H as <-. unfold timer_cb. cbn [p_state]. destruct (p_state p); try reflexivity; rewrite state_chg_cb; reflexivity.
  - destruct o; try (injection H as <-; reflexivity). exact (G _ _ H).
  - destruct rx; [discriminate|]. injection H as <-. reflexivity.
  - destruct (_ =? _); [|discriminate]. injection H as <-. reflexivity.
  - destruct (_ =? _); [|discriminate]. injection H as <-. reflexivity.
  - destruct o; try (injection H as <-; reflexivity); [exact (G _ _ H)|]. destruct (_ =? _); [|injection H as <-; reflexivity]. destruct ok; injection H as <-; [reflexivity|rewrite state_chg_cb; reflexivity].
Qed.
Lemma state_chg_calls_any k to p : p_state p <> PsAssociated -> assoc_calls (p_obs p) = [] ->
  assoc_calls (p_obs (state_chg k to p)) = if is_associated (state_chg k to p) && p_cb p then [true] else [].
Proof. destruct p as [st ti cb pc is nu ob]. cbn [p_state p_obs p_cb]. intros Hs Hc. destruct st, to, cb; try congruence; cbn; rewrite ?Hc; reflexivity. Qed.
Lemma not_assoc_chg k to p : to <> PsAssociated -> is_associated p = false -> is_associated (state_chg k to p) = false.
Proof. destruct p as [st ti cb pc is nu ob]. unfold is_associated. cbn [p_state]. destruct st, to, cb; try congruence; reflexivity. Qed.
(* becoming associated: only by an accepting answer to one of the peer's requests, and then the callback is called *)
Lemma p_step_assoc k p v p' : is_associated p = false -> assoc_calls (p_obs p) = [] -> p_step k p v = POk p' ->
  is_associated p' = false /\ assoc_calls (p_obs p') = []
  \/ is_associated p' = true /\ assoc_calls (p_obs p') = (if p_cb p then [true] else []) /\ exists id r, v = VEp (OResp id r) /\ In id (p_ids p) /\ accepts r = true.
Proof.
  intros Ha Hc. assert (Hs : p_state p <> PsAssociated) by (unfold is_associated in Ha; destruct (p_state p); congruence).
  assert (N : forall to, to <> PsAssociated -> POk (state_chg k to p) = POk p' -> is_associated p' = false /\ assoc_calls (p_obs p') = []).
  { intros to Hto [= <-]. pose proof (not_assoc_chg k to p Hto Ha) as E. split; [exact E|]. rewrite (state_chg_calls_any k to p Hs Hc), E. reflexivity. }
  assert (G : forall id r, v = VEp (OResp id r) -> p_resp k id r p = POk p' ->
    is_associated p' = false /\ assoc_calls (p_obs p') = []
    \/ is_associated p' = true /\ assoc_calls (p_obs p') = (if p_cb p then [true] else []) /\ exists id r, v = VEp (OResp id r) /\ In id (p_ids p) /\ accepts r = true).
  { intros id r Hv. unfold p_resp. destruct (existsb _ (p_ids p)) eqn:Ei; [|intros [= <-]; left; auto]. rewrite on_assoc_resp_eq. destruct (existsb _ (p_null p)); [discriminate|].
    destruct (accepts r) eqn:Er; [|intros H; left; apply (N PsWaitRetry); [discriminate|exact H]]. unfold dispatch. destruct (negb _); [intros [= <-]; left; unfold is_associated in *; cbn; auto|].
    destruct (p_state p) eqn:Es; try discriminate. intros [= <-]. right. rewrite (state_chg_calls_any k _ p) by (auto; congruence).
    assert (E1 : is_associated (state_chg k PsAssociated p) = true). { destruct p as [st ti cb pc is nu ob]. cbn [p_state] in Es. subst st. unfold is_associated. destruct cb; reflexivity. }
    rewrite E1. split; [reflexivity|]. split; [reflexivity|]. exists id, r. split; [exact Hv|]. split; [|exact Er]. apply existsb_exists in Ei. destruct Ei as (x & Hx & E). apply N.eqb_eq in E. congruence. }
  unfold p_step. destruct (p_pc p) as [| |m0|m0| |i0], v as [|b| | |m rx|m|m|m|m|id|o]; try discriminate; intros H; try (injection H as <-; left; unfold is_associated in *; cbn; auto; fail).
  - left. unfold associate in H. destruct (p_state p) eqn:Es; try congruence; try (injection H as <-; unfold is_associated; cbn; rewrite ?Es; auto; fail); apply (N PsWaitAssoc); congruence.
  - destruct (p_timer p); [|discriminate]. unfold timer_cb in H. cbn [p_state] in H. left. destruct (p_state p) eqn:Es; try (injection H as <-; unfold is_associated; cbn; rewrite ?Hc; auto; fail); try congruence.
  - destruct o; try (injection H as <-; left; auto; fail). apply (G _ _ eq_refl H).
  - destruct rx; [discriminate|]. injection H as <-. left. auto.
  - destruct (_ =? _); [|discriminate]. injection H as <-. left. auto.
  - destruct (_ =? _); [|discriminate]. injection H as <-. left. auto.
  - destruct o; try (injection H as <-; left; auto; fail); [apply (G _ _ eq_refl H)|]. destruct (_ =? _); [|injection H as <-; left; auto].
    destruct ok; injection H as <-; [left; auto|]. left. set (q := set_pc PcIdle p).
    pose proof (not_assoc_chg k PsWaitRetry q ltac:(discriminate) Ha) as E. split; [exact E|]. rewrite (state_chg_calls_any k PsWaitRetry q Hs Hc), E. reflexivity.
Qed.
Lemma callback_snoc l v : callback_set (l ++ [v]) = match v with VSetCb b => b | _ => callback_set l end.
Proof. unfold callback_set. rewrite fold_left_app. reflexivity. Qed.
Lemma run_cb k l : forall p, p_run k peer_alloc l = POk p -> p_cb p = callback_set l.
Proof.
  induction l as [|v l IH] using rev_ind; intros p H; [injection H as <-; reflexivity|]. apply p_run_snoc in H. destruct H as (q & H1 & H2).
  rewrite callback_snoc, (p_step_cb _ _ _ _ H2). destruct v; try reflexivity; apply IH; assumption.
Qed.
Theorem assoc_cb_any c k s l p : execution c k s l p ->
  is_associated p = false /\ assoc_calls (p_obs p) = []
  \/ is_associated p = true /\ exists l1 id r l2 p1, l = l1 ++ VEp (OResp id r) :: l2 /\ In (VOwnTx id) l1 /\ accepts r = true
     /\ p_run k peer_alloc l1 = POk p1 /\ is_associated p1 = false /\ assoc_calls (p_obs p) = if callback_set l1 then [true] else [].
Proof.
  intros (R & E & H). assert (G : forall l1 l2 p, l = l1 ++ l2 -> p_run k peer_alloc l1 = POk p ->
    is_associated p = false /\ assoc_calls (p_obs p) = []
    \/ is_associated p = true /\ exists la id r lb p1, l1 = la ++ VEp (OResp id r) :: lb /\ In (VOwnTx id) la /\ accepts r = true
     /\ p_run k peer_alloc la = POk p1 /\ is_associated p1 = false /\ assoc_calls (p_obs p) = if callback_set la then [true] else []).
  { intros l1. induction l1 as [|v l1 IH] using rev_ind; intros l2 q El Hq; [injection Hq as <-; left; split; reflexivity|].
    apply p_run_snoc in Hq. destruct Hq as (q1 & Hq1 & Hq2). rewrite <- app_assoc in El. pose proof (pinv_all c k s _ R E l1 _ q1 El Hq1) as X.
    destruct (IH _ _ El Hq1) as [(A & B)|(A & la & id & r & lb & p1 & B1 & B2 & B3 & B4 & B5 & B6)].
    - destruct (p_step_assoc k q1 v q A B Hq2) as [C|(C1 & C2 & id & r & -> & C3 & C4)]; [left; exact C|]. right. split; [exact C1|]. exists l1, id, r, [], q1.
      split; [reflexivity|]. split; [destruct X as [X _ _ _ _]; apply X; exact C3|]. split; [exact C4|]. split; [exact Hq1|]. split; [exact A|]. rewrite C2, (run_cb k l1 q1 Hq1). reflexivity.
    - right. assert (Hs : p_state q1 = PsAssociated) by (unfold is_associated in A; destruct (p_state q1); congruence). destruct (assoc_pc _ _ _ X Hs) as [Ht Hpc].
      destruct (associated_stays k q1 v q Hs Ht Hpc Hq2) as (C1 & C2 & C3 & C4). split; [unfold is_associated; rewrite C1; reflexivity|].
      exists la, id, r, (lb ++ [v]), p1. split; [rewrite B1, <- app_assoc; reflexivity|]. rewrite C4. auto 6. }
  apply (G l []); [symmetry; apply app_nil_r|exact H].
Qed.

(* ---------------------------------------------------------------- C44 *)
Lemma resp_same c k s l id r r' : reachable c s -> ep_obs k l = rev (e_trace s) -> In (VEp (OResp id r)) l -> In (VEp (OResp id r')) l -> r = r'.
Proof.
  intros R E H H'. apply in_split in H. destruct H as (a & b & El). destruct (resp_new c k s l R E a id r b El r') as [X Y].
  rewrite El, in_app_iff in H'. destruct H' as [H'|[H'|H']]; [destruct (X H')|congruence|destruct (Y H')].
Qed.
Theorem associated_iff c k s l p : execution c k s l p -> is_associated p = true <-> exists id r, answered l id r /\ accepts r = true.
Proof.
  intros X. pose proof (exec_inv _ _ _ _ _ X) as [A B _ _ _]. destruct X as (R & E & _). split.
  - intros Ha. assert (Hs : p_state p = PsAssociated) by (unfold is_associated in Ha; destruct (p_state p); congruence).
    assert (Q : exists i ids, p_ids p = i :: ids /\ cur k l p i).
    { destruct (p_pc p); try (destruct B as [B _]; congruence); destruct (p_ids p) as [|i ids]; try contradiction; [destruct B; congruence| |]; exists i, ids; tauto. }
    destruct Q as (i & ids & Ei & [(_ & Q & _)|(r & Q1 & Q2)]); [congruence|]. exists i, r. destruct (accepts r); [|destruct Q2; congruence].
    split; [|reflexivity]. split; [apply A; rewrite Ei; left; reflexivity|exact Q1].
  - intros (id & r & [H1 H2] & Hr). apply A in H1.
    assert (NR : ~ rejected l id) by (intros (r' & X1 & X2); rewrite (resp_same c k s l id r r' R E H2 X1) in Hr; congruence).
    assert (NF : forall ids, Forall (rejected l) ids -> ~ In id ids) by (intros ids F; rewrite Forall_forall in F; intros Hi; exact (NR (F _ Hi))).
    assert (K : cur k l p id -> is_associated p = true).
    { intros [(X1 & _)|(r' & X1 & X2)]; [destruct (X1 _ H2)|]. rewrite <- (resp_same c k s l id r r' R E H2 X1), Hr in X2. unfold is_associated. destruct X2 as [-> _]. reflexivity. }
    destruct (p_pc p); try (destruct B as (_ & _ & B); destruct (NF _ B H1)); destruct (p_ids p) as [|i ids]; try contradiction; destruct H1 as [<-|H1]; try tauto;
      destruct (NF ids); tauto.
Qed.

Lemma state_chg_nd k to p : to <> PsDisabled -> p_state p <> PsDisabled -> p_state (state_chg k to p) <> PsDisabled.
Proof. unfold state_chg, onenter, onleave, call_assoc_cb. destruct p as [st ti cb pc is nu ob]. cbn. destruct st, to, cb; cbn; congruence. Qed.
Lemma p_resp_nd k id r p p' : p_state p <> PsDisabled -> p_resp k id r p = POk p' -> p_state p' <> PsDisabled.
Proof.
  intros N. unfold p_resp. destruct (existsb _ (p_ids p)); [|intros [= <-]; exact N]. rewrite on_assoc_resp_eq. destruct (existsb _ _); [discriminate|].
  destruct (accepts r); [|intros [= <-]; apply state_chg_nd; [discriminate|exact N]]. unfold dispatch. destruct (in_ok _ _); cbn [negb]; [|intros [= <-]; exact N].
  destruct (p_state p) eqn:Es; try discriminate. intros [= <-]. apply state_chg_nd; [discriminate|congruence].
Qed.
Lemma p_step_nd k p v p' : p_step k p v = POk p' -> v = VAssociate \/ p_state p <> PsDisabled -> p_state p' <> PsDisabled.
Proof.
  unfold p_step. intros H N. destruct (p_pc p) as [| |m0|m0| |i0], v as [|b| | |m rx|m|m|m|m|id|o]; try discriminate.
  all: try (destruct N as [N|N]; [discriminate N|]; injection H as <-; exact N).
  - injection H as <-. unfold associate. destruct (p_state p) eqn:Es; try congruence; cbn; try congruence; unfold state_chg; rewrite Es; cbn; discriminate.
  - destruct N as [N|N]; [discriminate N|]. destruct (p_timer p); [|discriminate]. injection H as <-. unfold timer_cb. cbn [p_state].
    destruct (p_state p) eqn:Es; cbn; try congruence; apply state_chg_nd; discriminate.
  - destruct N as [N|N]; [discriminate N|]. destruct o; try (injection H as <-; exact N). exact (p_resp_nd _ _ _ _ _ N H).
  - destruct N as [N|N]; [discriminate N|]. destruct rx; [discriminate|]. injection H as <-. exact N.
  - destruct N as [N|N]; [discriminate N|]. destruct (_ =? _); [|discriminate]. injection H as <-. exact N.
  - destruct N as [N|N]; [discriminate N|]. destruct (_ =? _); [|discriminate]. injection H as <-. exact N.
  - destruct N as [N|N]; [discriminate N|]. destruct o; try (injection H as <-; exact N); [exact (p_resp_nd _ _ _ _ _ N H)|].
    destruct (_ =? _); [|injection H as <-; exact N]. destruct ok; injection H as <-; [exact N|]. apply state_chg_nd; [discriminate|exact N].
Qed.
Lemma p_run_nd k l : forall p p', p_run k p l = POk p' -> In VAssociate l \/ p_state p <> PsDisabled -> p_state p' <> PsDisabled.
Proof.
  induction l as [|v l IH]; intros p p' H N.
  - injection H as <-. destruct N as [[]|N]; exact N.
  - cbn [p_run] in H. destruct (p_step k p v) as [p1| |] eqn:E; try discriminate. apply (IH p1 p' H). cbn in N. destruct N as [[N|N]|N]; [|auto|].
    + right. eapply p_step_nd; [exact E|left; congruence].
    + right. eapply p_step_nd; [exact E|right; exact N].
Qed.
Theorem always_trying c k s l p : execution c k s l p -> p_pc p = PcIdle -> In VAssociate l ->
  is_associated p = true
  \/ p_state p = PsWaitRetry /\ p_timer p = (if k_retry k =? 0 then None else Some (k_retry k))
  \/ p_state p = PsWaitAssoc /\ exists id, In (VOwnTx id) l /\ count (is_resp_cb id) (e_trace s) = 0.
Proof.
  intros X Hpc Hin. pose proof (exec_inv _ _ _ _ _ X) as [A B _ _ _]. destruct X as (R & E & H). rewrite Hpc in B.
  assert (N : p_state p <> PsDisabled) by (apply (p_run_nd k l _ _ H); auto).
  destruct (p_ids p) as [|i ids] eqn:Ei; [destruct B; congruence|]. destruct B as [_ [(B1 & B2 & _)|(r & B1 & B2)]].
  - right. right. split; [exact B2|]. exists i. split; [apply A; left; reflexivity|].
    destruct (count (is_resp_cb i) (e_trace s)) eqn:C; [reflexivity|]. exfalso.
    assert (Y : exists o, In o (filter (is_resp_cb i) (e_trace s))) by (unfold count in C; destruct (filter _ _) as [|o f]; [discriminate|exists o; left; reflexivity]).
    destruct Y as (o & Y). apply filter_In in Y. destruct Y as [Y1 Y2]. destruct o; try discriminate. apply N.eqb_eq in Y2. subst id.
    rewrite in_rev, <- E in Y1. apply ep_obs_back in Y1. destruct Y1 as [Y1|(? & _ & Y1)]; [|discriminate]. exact (B1 _ Y1).
  - destruct (accepts r); destruct B2 as [B2 B3]; [left; unfold is_associated; rewrite B2; reflexivity|right; left; auto].
Qed.
(* the request is pending in the endpoint, if that is not closed after the peer was first told to associate *)
Lemma free_tx c s s0 id : reachable c s -> (exists new, e_trace s = new ++ e_trace s0) -> count (is_free id) (e_trace s0) <> 0 -> exists to h ies cb, In (OTx id to h ies cb) (e_trace s0).
Proof.
  intros R (new & En) C. assert (Y : exists o, In o (filter (is_free id) (e_trace s0))) by (unfold count in C; destruct (filter _ _) as [|o f]; [destruct C; reflexivity|exists o; left; reflexivity]).
  destruct Y as (o & Y). apply filter_In in Y. destruct Y as [Y1 Y2]. destruct o; try discriminate. apply N.eqb_eq in Y2. subst id0.
  apply in_split in Y1. destruct Y1 as (a & b & Ea). rewrite Ea, app_assoc in En.
  destruct (tx_first c s R _ _ _ id En (N.eqb_refl id) eq_refl) as (to & h & ies & cb & H). exists to, h, ies, cb. rewrite Ea, in_app_iff. right. right. exact H.
Qed.
Theorem request_pending c k s0 l0 evs s l p : reachable c s0 -> ep_obs k l0 = rev (e_trace s0) -> (forall id, ~ In (VOwnTx id) l0) ->
  run c s0 evs = Ok s -> Forall (event_free is_close) evs -> c_n1 c <> 0 -> c_t1 c <> 0 ->
  execution c k s (l0 ++ l) p -> p_pc p = PcIdle -> p_state p = PsWaitAssoc ->
  exists id, In (VOwnTx id) l /\ has_id id (e_reqs s) = true.
Proof.
  intros R0 E0 N0 Hr Hf Hn Ht X Hpc Hs. destruct X as (R & E & H).
  assert (Y : exists id, In (VOwnTx id) (l0 ++ l) /\ count (is_resp_cb id) (e_trace s) = 0).
  { pose proof (exec_inv c k s _ p (conj R (conj E H))) as [A B _ _ _]. rewrite Hpc in B. destruct (p_ids p) as [|i ids] eqn:Ei; [destruct B; congruence|].
    destruct B as [_ [(B1 & _)|(r & _ & B2)]]; [|destruct (accepts r); destruct B2; congruence]. exists i. split; [apply A; left; reflexivity|].
    destruct (count (is_resp_cb i) (e_trace s)) eqn:C; [reflexivity|]. exfalso.
    assert (Y : exists o, In o (filter (is_resp_cb i) (e_trace s))) by (unfold count in C; destruct (filter _ _) as [|o f]; [discriminate|exists o; left; reflexivity]).
    destruct Y as (o & Y). apply filter_In in Y. destruct Y as [Y1 Y2]. destruct o; try discriminate. apply N.eqb_eq in Y2. subst id.
    rewrite in_rev, <- E in Y1. apply ep_obs_back in Y1. destruct Y1 as [Y1|(? & _ & Y1)]; [|discriminate]. exact (B1 _ Y1). }
  destruct Y as (id & Hi & Hc). assert (Hl : In (VOwnTx id) l) by (rewrite in_app_iff in Hi; destruct Hi as [Hi|Hi]; [destruct (N0 _ Hi)|exact Hi]).
  exists id. split; [exact Hl|].
  assert (ET : e_trace s = rev (ep_obs k l) ++ e_trace s0).
  { rewrite <- (rev_involutive (e_trace s)), <- E, ep_obs_app, rev_app_distr, E0, rev_involutive. reflexivity. }
  assert (F : count (is_free id) (e_trace s0) = 0).
  { destruct (count (is_free id) (e_trace s0)) eqn:C; [reflexivity|exfalso]. destruct (free_tx c s s0 id R) as (to & h & ies & cb & T); [eexists; exact ET|congruence|].
    apply in_split in Hl. destruct Hl as (a & b & El). rewrite El, app_assoc in E.
    pose proof (tx_once c s R _ _ _ _ _ _ id (log_split k s _ E (l0 ++ a) (VOwnTx id) b _ eq_refl eq_refl)) as O.
    assert (O' : existsb (is_tx id) (rev (ep_obs k b) ++ rev (ep_obs k (l0 ++ a))) = true).
    { apply existsb_exists. exists (OTx id to h ies cb). split; [|apply N.eqb_refl]. rewrite in_app_iff, <- !in_rev, ep_obs_app, in_app_iff. right. left. rewrite E0, <- in_rev. exact T. }
    congruence. }
  destruct (pending_or_resolved c s0 evs s id (k_remote k) assoc_hdr (assoc_ies k) true R0 Hr Hf Hn Ht F) as [(P & _)|(_ & _ & P)]; [|reflexivity|exact P|cbv iota in P; lia].
  rewrite ET, in_app_iff. left. rewrite <- in_rev. apply ep_obs_own. exact Hl.
Qed.

(* each attempt sends a new request *)
Theorem attempt_sends k p v l' p' : p_pc p = PcIdle ->
  v = VAssociate /\ (p_state p = PsDisabled \/ p_state p = PsWaitRetry) \/ v = VTimer /\ p_state p = PsWaitRetry ->
  p_run k p (v :: l') = POk p' -> p_pc p' = PcIdle ->
  exists m id l'', l' = VAlloc m false :: VSetCtx m :: VGive m :: VOwnTx id :: l''.
Proof.
  intros Hpc Hv H Hpc'. cbn [p_run] in H. destruct (p_step k p v) as [p1| |] eqn:E; try discriminate.
  assert (P1 : p_pc p1 = PcAlloc).
  { unfold p_step in E. rewrite Hpc in E. destruct Hv as [[-> [Hs|Hs]]|[-> Hs]].
    - injection E as <-. unfold associate. rewrite Hs. unfold state_chg. rewrite Hs. reflexivity.
    - injection E as <-. unfold associate. rewrite Hs. unfold state_chg. rewrite Hs. reflexivity.
    - destruct (p_timer p); [|discriminate]. injection E as <-. unfold timer_cb. cbn [p_state]. rewrite Hs. unfold state_chg. cbn [p_state]. reflexivity. }
  clear E. destruct l' as [|v1 l']; [injection H as <-; congruence|]. cbn [p_run] in H. unfold p_step in H. rewrite P1 in H. destruct v1; try discriminate. destruct rx; [discriminate|].
  destruct l' as [|v2 l']; [injection H as <-; discriminate|]. cbn [p_run p_step set_pc p_pc] in H. destruct v2; try discriminate. destruct (N.eqb_spec m0 m); [|discriminate]. subst m0.
  destruct l' as [|v3 l']; [injection H as <-; discriminate|]. cbn [p_run p_step set_pc p_pc] in H. destruct v3; try discriminate. destruct (N.eqb_spec m0 m); [|discriminate]. subst m0.
  destruct l' as [|v4 l']; [injection H as <-; discriminate|]. cbn [p_run p_step set_pc p_pc] in H. destruct v4; try discriminate.
  exists m, id, l'. reflexivity.
Qed.

(* a peer whose request was dropped by close() *)
Theorem stuck c k s l p id : execution c k s l p -> p_pc p = PcIdle -> p_state p = PsWaitAssoc -> hd_error (p_ids p) = Some id ->
  has_id id (e_reqs s ++ e_resps s) = false ->
  forall evs s' l' p', run c s evs = Ok s' -> execution c k s' (l ++ l') p' -> p_run k p l' = POk p' -> p_state p' = PsWaitAssoc /\ p_pc p' = PcIdle /\ p_ids p' = p_ids p.
Proof.
  intros X Hpc Hs Hid Hh evs s' l' p' Hr X' H. pose proof (exec_inv _ _ _ _ _ X) as [A B _ _ _]. destruct X as (R & E & Hl). destruct X' as (R' & E' & Hl').
  destruct (p_ids p) as [|i ids] eqn:Ei; [discriminate|]. injection Hid as ->. rewrite Hpc in B.
  destruct B as [B1 [(B2 & _ & B3)|(r & _ & B2)]]; [|destruct (accepts r); destruct B2; congruence].
  assert (Hown : In (VOwnTx id) l) by (apply A; left; reflexivity).
  assert (Hlt : id < e_next s).
  { eapply wf_about; [exact (reach_wf c s R)| |exact (N.eqb_refl id : about id (OTx id (k_remote k) assoc_hdr (assoc_ies k) true) = true)].
    rewrite in_rev, <- E. apply ep_obs_own. exact Hown. }
  assert (NR : forall r, ~ In (VEp (OResp id r)) (l ++ l')).
  { intros r Y. apply (ep_obs_in k) in Y. rewrite E', <- in_rev in Y. apply (in_tr_of id) in Y; [|apply N.eqb_refl].
    rewrite (gone_is_silent c s evs s' id R Hlt Hh Hr) in Y. apply in_tr_of in Y; [|apply N.eqb_refl]. rewrite in_rev, <- E in Y. apply ep_obs_back in Y.
    destruct Y as [Y|(? & _ & Y)]; [exact (B2 _ Y)|discriminate]. }
  assert (G : forall l1 l2 q, l' = l1 ++ l2 -> p_run k p l1 = POk q -> p_state q = PsWaitAssoc /\ p_pc q = PcIdle /\ p_timer q = None /\ p_ids q = id :: ids).
  { intros l1. induction l1 as [|v l1 IH] using rev_ind; intros l2 q El Hq; [injection Hq as <-; auto|].
    apply p_run_snoc in Hq. destruct Hq as (q1 & Hq1 & Hq2). rewrite <- app_assoc in El. destruct (IH _ _ El Hq1) as (I1 & I2 & I3 & I4).
    unfold p_step in Hq2. rewrite I2 in Hq2. destruct v as [|b| | |m rx|m|m|m|m|i|o]; try discriminate; try (injection Hq2 as <-; cbn; auto; fail).
    - injection Hq2 as <-. unfold associate. rewrite I1. auto.
    - rewrite I3 in Hq2. discriminate.
    - destruct o; try (injection Hq2 as <-; auto; fail). unfold p_resp in Hq2. destruct (existsb (N.eqb id0) (p_ids q1)) eqn:Ex; [exfalso|injection Hq2 as <-; auto].
      apply existsb_in in Ex. rewrite I4 in Ex. destruct Ex as [<-|Ex].
      + apply (NR r). rewrite El, !in_app_iff. cbn. auto.
      + rewrite Forall_forall in B1. destruct (B1 _ Ex) as (r' & Y1 & Y2).
        assert (El2 : l ++ l' = (l ++ l1) ++ VEp (OResp id0 r) :: l2) by (rewrite El, <- app_assoc; reflexivity).
        destruct (resp_new c k s' _ R' E' _ _ _ _ El2 r') as [Z _]. apply Z. rewrite in_app_iff. auto. }
  destruct (G l' [] p' (eq_sym (app_nil_r l')) H) as (G1 & G2 & _ & G4). auto.
Qed.
Theorem stuck_silent c k s l p id : execution c k s l p -> p_pc p = PcIdle -> p_state p = PsWaitAssoc -> hd_error (p_ids p) = Some id ->
  has_id id (e_reqs s ++ e_resps s) = false ->
  forall evs s' l' p', run c s evs = Ok s' -> execution c k s' (l ++ l') p' -> p_run k p l' = POk p' ->
    is_associated p' = false /\ (forall i, In (VOwnTx i) (l ++ l') -> In (VOwnTx i) l).
Proof.
  intros X Hpc Hs Hid Hh evs s' l' p' Hr X' H. destruct (stuck c k s l p id X Hpc Hs Hid Hh evs s' l' p' Hr X' H) as (A & _ & C).
  split; [unfold is_associated; rewrite A; reflexivity|]. intros i Hi. pose proof (exec_inv _ _ _ _ _ X) as [P _ _ _ _]. pose proof (exec_inv _ _ _ _ _ X') as [P' _ _ _ _].
  apply P. rewrite <- C. apply P'. exact Hi.
Qed.

(* what the request looks like on the wire *)
Lemma assoc_enc k a b c d port nr : encode_msg (mkHdr 1 msgt_assoc_setup_req None None nr) (put_node_id (IvNode (NodeV4 (Sa4 [a; b; c; d] port))) msgt_assoc_setup_req (assoc_ies k))
  = Ok (assoc_req_bytes [a; b; c; d] nr (k_recov k)).
Proof. vm_compute. reflexivity. Qed.
Theorem request_bytes cf k s l p a b c d port id t to bs : execution cf k s l p -> c_node cf = IvNode (NodeV4 (Sa4 [a; b; c; d] port)) ->
  In (VOwnTx id) l -> In (VEp (OSend (Some id) t to bs)) l ->
  to = k_remote k /\ exists nr, In (VEp (OSeq (Some id) nr)) l /\ bs = assoc_req_bytes [a; b; c; d] nr (k_recov k).
Proof.
  intros (R & E & _) Hn H1 H2. apply (ep_obs_own k) in H1. apply (ep_obs_in k) in H2. rewrite E, <- in_rev in H1, H2.
  destruct (what_is_sent cf s id _ _ _ _ t to bs R H1 H2) as (-> & nr & En & Hs). split; [reflexivity|]. exists nr.
  change (is_response (hd_type assoc_hdr)) with false in Hs. cbv iota in Hs. split.
  - rewrite in_rev, <- E in Hs. apply ep_obs_back in Hs. destruct Hs as [Hs|(? & _ & Hs)]; [exact Hs|discriminate].
  - rewrite Hn in En. change (hd_type assoc_hdr) with msgt_assoc_setup_req in En. change (hd_version assoc_hdr) with 1 in En.
    change (hd_prio assoc_hdr) with (@None N) in En. change (hd_seid assoc_hdr) with (@None N) in En. rewrite assoc_enc in En. congruence.
Qed.
Theorem request_in_time c k time evs0 s0 l0 evs s l p : run c (ep_create time) evs0 = Ok s0 -> run c s0 evs = Ok s -> prompt c (ep_create time) (evs0 ++ evs) ->
  Forall (event_free is_close) evs -> c_n1 c <> 0 -> c_t1 c <> 0 -> ep_obs k l0 = rev (e_trace s0) -> (forall id, ~ In (VOwnTx id) l0) ->
  execution c k s (l0 ++ l) p -> p_pc p = PcIdle -> p_state p = PsWaitAssoc ->
  exists id t0, In (VOwnTx id) l /\ has_id id (e_reqs s) = true /\ first_send id (e_trace s) t0 /\ e_now s <= t0 + (c_n1 c + 1) * c_t1 c.
Proof.
  intros H0 H P F Hn Ht E0 N0 X Hpc Hs.
  destruct (request_pending c k s0 l0 evs s l p (ex_intro _ time (ex_intro _ evs0 H0)) E0 N0 H F Hn Ht X Hpc Hs) as (id & A & B).
  assert (HR : run c (ep_create time) (evs0 ++ evs) = Ok s) by (rewrite run_app, H0; exact H).
  destruct X as (R & E & _). assert (T : In (OTx id (k_remote k) assoc_hdr (assoc_ies k) true) (e_trace s)).
  { rewrite in_rev, <- E. apply ep_obs_own. rewrite in_app_iff. auto. }
  destruct (resolved_in_time c time _ s id _ _ _ _ HR P T eq_refl B) as (t0 & ll & C & D). exists id, t0. repeat split; auto. exists ll. exact C.
Qed.
