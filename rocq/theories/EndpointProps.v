(* EndpointProps.v -- lemmas behind the property theorems C30 .. C34, C40, C41 *)
From Verif Require Import Base BaseProofs GtlvModel DecEncModel IesModel IesProofs TablesModel MsgModel EndpointModel EndpointSpec EndpointProofs EndpointRun EndpointLife EndpointFinal.

Lemma le_le T a b : D_le T a b -> a <= b.
Proof. intros [H _]. exact H. Qed.
Lemma eq_eq T a b : D_eq T a b -> b = a.
Proof. intros [H _]. exact H. Qed.

(* what the invariant says, in terms of the whole trace *)
Lemma known_obs c D cl s id m p : known c D cl s id m p ->
  match p with
  | PWait k dl => mi_resp m = false /\ c_n1 c <> 0 /\ c_t1 c <> 0 /\ k <= c_n1 c
      /\ obs_all id s = mkObs (1 + c_n1 c - k) 0 0 0 0 (c_n1 c - k)
      /\ (exists t l, send_times id (e_trace s) = t :: l /\ dl = t + c_t1 c)
      /\ spaced (fun a b => D a b) (c_t1 c) (send_times id (e_trace s)) /\ encoded c m
  | PCached dl => mi_resp m = true /\ c_n1 c <> 0 /\ c_t1 c <> 0 /\ n_fail (obs_all id s) = 0 /\ n_ok (obs_all id s) = 0
      /\ n_free (obs_all id s) = 0 /\ n_timer (obs_all id s) = 0
      /\ (exists t, first_send id (e_trace s) t /\ dl = t + c_keep c) /\ encoded c m
  | PGone =>
    if mi_resp m then
      n_fail (obs_all id s) = 0 /\ n_ok (obs_all id s) = 0 /\ n_free (obs_all id s) <= 1 /\ n_timer (obs_all id s) <= 1
      /\ (n_free (obs_all id s) = 0 -> (c_n1 c = 0 \/ c_t1 c = 0) /\ n_send (obs_all id s) = 1)
      /\ (n_timer (obs_all id s) = 1 -> exists t t', first_send id (e_trace s) t /\ In (OTimer id t') (e_trace s) /\ D (t + c_keep c) t')
      /\ (n_timer (obs_all id s) = 0 -> n_free (obs_all id s) = 0 \/ n_send (obs_all id s) = 0 \/ cl = true)
    else
      let cb := if mi_cb m then 1 else 0 in
      (c_n1 c = 0 \/ c_t1 c = 0) /\ obs_all id s = mkObs 1 0 cb 0 0 0
      \/ obs_all id s = mkObs 0 1 cb 0 1 0
      \/ c_n1 c <> 0 /\ c_t1 c <> 0 /\ spaced (fun a b => D a b) (c_t1 c) (send_times id (e_trace s)) /\ encoded c m
         /\ exists k, k <= c_n1 c /\
           (obs_all id s = mkObs (1 + c_n1 c) 0 cb 0 1 (c_n1 c + 1)
            \/ k <> 0 /\ obs_all id s = mkObs (1 + c_n1 c - k) 1 cb 0 1 (c_n1 c - k + 1)
            \/ obs_all id s = mkObs (1 + c_n1 c - k) 0 0 cb 1 (c_n1 c - k)
            \/ cl = true /\ obs_all id s = mkObs (1 + c_n1 c - k) 0 0 0 1 (c_n1 c - k))
  end.
Proof.
  intros [_ [_ _ _ _ L] _]. unfold first_send in *. rewrite send_times_tr_of, obs_tr in L. destruct p as [k dl|dl|]; [exact L|exact L|].
  destruct (mi_resp m); [|exact L]. destruct L as (A & B & C & E & F & G & I). do 5 (split; [assumption|]). split; [|exact I].
  intros Ht. destruct (G Ht) as (t & t' & G1 & G2 & G3). exists t, t'. repeat split; try assumption.
  apply (proj1 (in_tr_of id _ _ (N.eqb_refl id : about id (OTimer id t') = true)) G2).
Qed.

Ltac obsfields := unfold obs_all, obs_of in *;
  repeat match goal with H : mkObs _ _ _ _ _ _ = mkObs _ _ _ _ _ _ |- _ => injection H as ? ? ? ? ? ? end; cbn [n_send n_err n_fail n_ok n_free n_timer] in *.

(* ---------------------------------------------------------------- C30 *)
Section Req.
Variables (c : ep_cfg) (D : N -> N -> Prop) (cl : bool) (s : ep) (id : N) (m : minfo) (p : phase).
Hypothesis (K : known c D cl s id m p) (R : mi_resp m = false).

Lemma req_sends : count (is_send id) (e_trace s) <= 1 + c_n1 c.
Proof.
  pose proof (known_obs _ _ _ _ _ _ _ K) as H. destruct p as [k dl|dl|].
  - destruct H as (_ & _ & _ & _ & H & _). obsfields. lia.
  - destruct H as (H & _). congruence.
  - rewrite R in H. destruct H as [(_ & H)|[H|(_ & _ & _ & _ & k & Hk & [H|[(_ & H)|[H|(_ & H)]]])]]; obsfields; lia.
Qed.
Lemma req_spaced : spaced (fun a b => D a b) (c_t1 c) (send_times id (e_trace s)).
Proof.
  pose proof (known_obs _ _ _ _ _ _ _ K) as H. destruct p as [k dl|dl|].
  - tauto.
  - destruct H as (H & _). congruence.
  - rewrite R in H. destruct H as [(_ & H)|[H|(_ & _ & H & _)]]; [| |exact H]; unfold obs_all, obs_of in H; injection H as H _ _ _ _ _;
      rewrite <- send_times_len in H; destruct (send_times id (e_trace s)) as [|a [|b l]]; cbn; try exact I; rewrite ?lenN_cons in H; lia.
Qed.
Lemma req_fail_cb : c_n1 c <> 0 -> c_t1 c <> 0 -> count (is_resp_fail id) (e_trace s) <> 0 ->
  count (is_resp_fail id) (e_trace s) = 1 /\ count (is_resp_ok id) (e_trace s) = 0 /\
  (count (is_senderr id) (e_trace s) = 1
   \/ count (is_send id) (e_trace s) = 1 + c_n1 c /\ count (is_timer id) (e_trace s) = c_n1 c + 1).
Proof.
  intros Hn Ht Hf. pose proof (known_obs _ _ _ _ _ _ _ K) as H. destruct p as [k dl|dl|].
  - destruct H as (_ & _ & _ & _ & H & _). obsfields. congruence.
  - destruct H as (H & _). congruence.
  - rewrite R in H. destruct H as [(H & _)|[H|(_ & _ & _ & _ & k & Hk & [H|[(_ & H)|[H|(_ & H)]]])]]; [tauto|..];
      obsfields; destruct (mi_cb m); try congruence; repeat split; lia.
Qed.
Lemma req_timed_out : count (is_timer id) (e_trace s) = c_n1 c + 1 -> c_n1 c <> 0 -> c_t1 c <> 0 ->
  count (is_resp_fail id) (e_trace s) = (if mi_cb m then 1 else 0) /\ count (is_resp_ok id) (e_trace s) = 0
  /\ count (is_free id) (e_trace s) = 1 /\ has_id id (e_reqs s) = false.
Proof.
  intros Hc Hn Ht. pose proof (known_obs _ _ _ _ _ _ _ K) as H. pose proof (kn_phase _ _ _ _ _ _ _ K) as P. destruct p as [k dl|dl|].
  - destruct H as (_ & _ & _ & _ & H & _). obsfields. lia.
  - destruct H as (H & _). congruence.
  - rewrite R in H. rewrite has_id_find. destruct P as [P _]. rewrite P. 
    destruct H as [(H & _)|[H|(_ & _ & _ & _ & k & Hk & [H|[(Hk0 & H)|[H|(_ & H)]]])]]; [tauto|..];
      obsfields; repeat split; lia.
Qed.
Lemma req_timers : count (is_timer id) (e_trace s) <= c_n1 c + 1.
Proof.
  pose proof (known_obs _ _ _ _ _ _ _ K) as H. destruct p as [k dl|dl|].
  - destruct H as (_ & _ & _ & _ & H & _). obsfields. lia.
  - destruct H as (H & _). congruence.
  - rewrite R in H. destruct H as [(_ & H)|[H|(_ & _ & _ & _ & k & Hk & [H|[(_ & H)|[H|(_ & H)]]])]]; obsfields; lia.
Qed.
(* pending or resolved *)
Lemma req_resolved : cl = false -> c_n1 c <> 0 -> c_t1 c <> 0 ->
  has_id id (e_reqs s) = true /\ count (is_free id) (e_trace s) = 0 /\ count (is_resp_cb id) (e_trace s) = 0
  \/ has_id id (e_reqs s) = false /\ count (is_free id) (e_trace s) = 1 /\ count (is_resp_cb id) (e_trace s) = if mi_cb m then 1 else 0.
Proof.
  intros Hc Hn Ht. pose proof (known_obs _ _ _ _ _ _ _ K) as H. pose proof (kn_phase _ _ _ _ _ _ _ K) as P. rewrite has_id_find, resp_cb_count. destruct p as [k dl|dl|].
  - left. destruct P as [P _]. rewrite P. destruct H as (_ & _ & _ & _ & H & _). obsfields. repeat split; lia.
  - destruct H as (H & _). congruence.
  - right. destruct P as [P _]. rewrite P. rewrite R in H.
    destruct H as [(H & _)|[H|(_ & _ & _ & _ & k & Hk & [H|[(Hk0 & H)|[H|(Hcl & H)]]])]]; [tauto|..]; try congruence; obsfields; repeat split; lia.
Qed.
Lemma req_pending_due : has_id id (e_reqs s) = true -> exists q t l, In q (e_reqs s) /\ q_id q = id /\ send_times id (e_trace s) = t :: l
  /\ q_dl q = t + c_t1 c.
Proof.
  rewrite has_id_find. pose proof (known_obs _ _ _ _ _ _ _ K) as H. pose proof (kn_phase _ _ _ _ _ _ _ K) as P. destruct p as [k dl|dl|]; destruct P as [P P2]; rewrite P; try discriminate.
  intros _. destruct H as (_ & _ & _ & _ & _ & (t & l & Hl & Hd) & _). apply find_id_some in P. destruct P as [P _].
  eexists. exists t, l. split; [exact P|]. cbn. repeat split; assumption.
Qed.
End Req.

(* same remote and bytes, and these are the encoded message *)
Lemma known_sends c D cl s id m p : known c D cl s id m p -> forall t to bs, In (OSend (Some id) t to bs) (e_trace s) ->
  to = mi_to m /\ bs = mi_bs m /\ encoded c m.
Proof.
  intros [_ [H _ _ _ _] _] t to bs Hin. apply (in_tr_of id) in Hin; [|cbn; apply N.eqb_refl]. exact (H _ _ _ Hin).
Qed.

Theorem bounded_retransmission c s id to h ies cb : reachable c s -> In (OTx id to h ies cb) (e_trace s) -> is_response (hd_type h) = false ->
  count (is_send id) (e_trace s) <= 1 + c_n1 c
  /\ spaced N.le (c_t1 c) (send_times id (e_trace s))
  /\ exists bs, forall t to' bs', In (OSend (Some id) t to' bs') (e_trace s) -> to' = to /\ bs' = bs.
Proof.
  intros H Ht R. destruct (tx_known c s id to h ies cb H Ht) as (m & p & K & A & B & _ & _). rewrite <- B in R. split; [|split].
  - eapply req_sends; [exact K|exact R].
  - eapply spaced_mono; [|eapply req_spaced; [exact K|exact R]]. intros a b. apply le_le.
  - exists (mi_bs m). intros t to' bs' Hin. destruct (known_sends _ _ _ _ _ _ _ K _ _ _ Hin) as (-> & -> & _). rewrite A. auto.
Qed.
Theorem failure_callback c s id to h ies cb : reachable c s -> In (OTx id to h ies cb) (e_trace s) -> is_response (hd_type h) = false ->
  c_n1 c <> 0 -> c_t1 c <> 0 ->
  (count (is_resp_fail id) (e_trace s) <> 0 ->
     count (is_resp_fail id) (e_trace s) = 1 /\ count (is_resp_ok id) (e_trace s) = 0
     /\ (count (is_senderr id) (e_trace s) = 1
         \/ count (is_send id) (e_trace s) = 1 + c_n1 c /\ count (is_timer id) (e_trace s) = c_n1 c + 1))
  /\ (count (is_timer id) (e_trace s) = c_n1 c + 1 ->
     count (is_resp_fail id) (e_trace s) = (if cb then 1 else 0) /\ count (is_resp_ok id) (e_trace s) = 0
     /\ count (is_free id) (e_trace s) = 1 /\ has_id id (e_reqs s) = false).
Proof.
  intros H Ht R Hn H1. destruct (tx_known c s id to h ies cb H Ht) as (m & p & K & A & B & _ & <-). rewrite <- B in R. split.
  - eapply req_fail_cb; eassumption.
  - intros Hc. eapply req_timed_out; eassumption.
Qed.
Theorem exact_retransmission c time evs s id to h ies cb : run c (ep_create time) evs = Ok s -> prompt c (ep_create time) evs ->
  In (OTx id to h ies cb) (e_trace s) -> is_response (hd_type h) = false ->
  spaced (fun a b => b = a) (c_t1 c) (send_times id (e_trace s)).
Proof.
  intros E P Ht R. destruct (run_prompt c true evs _ s (e_now s) (wf_create time) (create_none_overdue time) P (fun C => match Bool.diff_true_false C with end) E (N.le_refl _)) as [A Ho].
  assert (Hid : id < e_next s) by (eapply wf_about; [exact (adv_wf _ _ _ _ _ A)|exact Ht|cbn; apply N.eqb_refl]).
  destruct (lives_known _ _ _ _ _ (adv_born _ _ _ _ _ A id (N.le_0_l _) Hid)) as (m & p & K).
  destruct (known_tx _ _ _ _ _ _ _ _ _ _ _ K Ht) as (_ & <- & _ & _).
  eapply spaced_mono; [|eapply req_spaced; [exact K|exact R]]. intros a b Hd. exact (eq_eq _ _ _ Hd).
Qed.

(* ---------------------------------------------------------------- C31 *)
Theorem resp_cb_once c s id : reachable c s -> count (is_resp_cb id) (e_trace s) <= 1.
Proof.
  intros H. destruct (N.lt_ge_cases id (e_next s)) as [Hid|Hid].
  - destruct (reach_known c s id H Hid) as (m & p & K). pose proof (known_obs _ _ _ _ _ _ _ K) as L. rewrite resp_cb_count. destruct p as [k dl|dl|].
    + destruct L as (_ & _ & _ & _ & L & _). obsfields. lia.
    + destruct L as (_ & _ & _ & A & B & _). obsfields. lia.
    + destruct (mi_resp m) eqn:R.
      * destruct L as (A & B & _). obsfields. lia.
      * destruct L as [(_ & L)|[L|(_ & _ & _ & _ & k & Hk & [L|[(Hk0 & L)|[L|(Hcl & L)]]])]]; obsfields; destruct (mi_cb m); lia.
  - pose proof (wf_new s (reach_wf c s H) id Hid) as Hn. rewrite <- (count_tr_of _ id), Hn; [cbn; unfold count; cbn; unfold lenN; cbn; lia|].
    intros o. destruct o; cbn; congruence.
Qed.

(* ---------------------------------------------------------------- C32 *)
(* after [s], along a history without close, a pending or new request *)
Lemma run_known c s evs s' id : reachable c s -> run c s evs = Ok s' -> Forall (event_free is_close) evs -> id < e_next s' ->
  e_next s <= id -> exists m p, known c (D_le (e_now s')) false s' id m p.
Proof.
  intros H E Hf Hid Hn. apply lives_known. eapply adv_born; [eapply (run_adv c false); [exact (reach_wf c s H)|intros _; exact Hf|exact E|apply N.le_refl]|assumption|assumption].
Qed.
(* a message that is with the endpoint in [s] and what becomes of it without close *)
Lemma linv_cl c (D D' : N -> N -> Prop) cl cl' id m tr p : (forall a b, D a b -> D' a b) -> p <> PGone -> linv c D cl id m tr p -> linv c D' cl' id m tr p.
Proof.
  intros HD Hp [A B C X E]. constructor; try assumption. destruct p as [k dl|dl|]; [|exact E|congruence].
  destruct E as (E1 & E2 & E3 & E4 & E5 & E6 & E7 & E8). do 6 (split; [assumption|]). split; [|assumption]. eapply spaced_mono; [|exact E7]. auto.
Qed.
Record follows (c : ep_cfg) (D : N -> N -> Prop) (s : ep) (id : N) (m : minfo) (p : phase) : Prop := mkFollows {
  fo_inv : linv c D false id m (tr_of id (e_trace s)) p;
  fo_phase : in_phase s id m p;
}.
Lemma run_follows c s evs s' id : reachable c s -> run c s evs = Ok s' -> Forall (event_free is_close) evs -> c_n1 c <> 0 -> c_t1 c <> 0 ->
  count (is_free id) (e_trace s) = 0 -> id < e_next s' -> exists m p, follows c (D_le (e_now s')) s' id m p.
Proof.
  intros H E Hf Hn Ht Hfr Hid. pose proof (reach_wf c s H) as W.
  pose proof (run_adv c false evs s s' (e_now s') W (fun _ => Hf) E (N.le_refl _)) as A.
  destruct (N.lt_ge_cases id (e_next s)) as [Ho|Ho].
  - destruct (reach_known c s id H Ho) as (m & p & K). pose proof (known_obs _ _ _ _ _ _ _ K) as L.
    assert (Hp : p <> PGone).
    { intros ->. destruct (mi_resp m).
      - destruct L as (_ & _ & _ & _ & L & _). obsfields. specialize (L Hfr). tauto.
      - destruct L as [(L & _)|[L|(_ & _ & _ & _ & k & Hk & [L|[(Hk0 & L)|[L|(Hcl & L)]]])]]; [tauto|..]; obsfields; lia. }
    destruct (adv_old _ _ _ _ _ A id m p Ho (kn_phase _ _ _ _ _ _ _ K)) as (p' & L' & P'). exists m, p'. split; [|exact P'].
    eapply lsteps_inv; [|exact L']. eapply linv_cl; [|exact Hp|exact (kn_inv _ _ _ _ _ _ _ K)].
    intros a b [X Y]. pose proof (adv_now _ _ _ _ _ A). split; lia.
  - destruct (lives_known _ _ _ _ _ (adv_born _ _ _ _ _ A id Ho Hid)) as (m & p & K). exists m, p. split; apply K.
Qed.
(* a fictitious history in which only this message matters *)
Lemma req_resolved_inv c D s id m p : linv c D false id m (tr_of id (e_trace s)) p -> in_phase s id m p -> mi_resp m = false -> c_n1 c <> 0 -> c_t1 c <> 0 ->
  has_id id (e_reqs s) = true /\ count (is_free id) (e_trace s) = 0 /\ count (is_resp_cb id) (e_trace s) = 0
  \/ has_id id (e_reqs s) = false /\ count (is_free id) (e_trace s) = 1 /\ count (is_resp_cb id) (e_trace s) = if mi_cb m then 1 else 0.
Proof.
  intros [_ _ _ _ H] P R Hn Ht. rewrite obs_tr in H. rewrite has_id_find, resp_cb_count. destruct p as [k dl|dl|].
  - left. destruct P as [P _]. rewrite P. destruct H as (_ & _ & _ & _ & H & _). obsfields. repeat split; lia.
  - destruct H as (H & _). congruence.
  - right. destruct P as [P _]. rewrite P. rewrite R in H.
    destruct H as [(H & _)|[H|(_ & _ & _ & _ & k & Hk & [H|[(Hk0 & H)|[H|(Hcl & H)]]])]]; [tauto|..]; try congruence; obsfields; repeat split; lia.
Qed.
Lemma linv_tx c D cl id m s p to h ies cb : linv c D cl id m (tr_of id (e_trace s)) p -> In (OTx id to h ies cb) (e_trace s) ->
  mi_to m = to /\ mi_h m = h /\ mi_ies m = ies /\ mi_cb m = cb.
Proof.
  intros [_ L _ _ _] H. apply (in_tr_of id) in H; [|cbn; apply N.eqb_refl]. destruct (L _ _ _ _ H) as (-> & -> & -> & ->). auto.
Qed.
Theorem pending_or_resolved c s evs s' id to h ies cb : reachable c s -> run c s evs = Ok s' -> Forall (event_free is_close) evs ->
  c_n1 c <> 0 -> c_t1 c <> 0 -> count (is_free id) (e_trace s) = 0 -> In (OTx id to h ies cb) (e_trace s') -> is_response (hd_type h) = false ->
  has_id id (e_reqs s') = true /\ count (is_free id) (e_trace s') = 0 /\ count (is_resp_cb id) (e_trace s') = 0
  \/ has_id id (e_reqs s') = false /\ count (is_free id) (e_trace s') = 1 /\ count (is_resp_cb id) (e_trace s') = if cb then 1 else 0.
Proof.
  intros H E Hf Hn Ht Hfr Htx R. assert (Hid : id < e_next s').
  { eapply wf_about; [exact (reach_wf _ _ (reach_run _ _ _ _ H E))|exact Htx|cbn; apply N.eqb_refl]. }
  destruct (run_follows _ _ _ _ _ H E Hf Hn Ht Hfr Hid) as (m & p & [I P]).
  destruct (linv_tx _ _ _ _ _ _ _ _ _ _ _ I Htx) as (_ & Eh & _ & <-). rewrite <- Eh in R. eapply req_resolved_inv; eassumption.
Qed.
Theorem timer_bound c s id to h ies cb : reachable c s -> In (OTx id to h ies cb) (e_trace s) -> is_response (hd_type h) = false ->
  count (is_timer id) (e_trace s) <= c_n1 c + 1
  /\ (has_id id (e_reqs s) = true -> count (is_timer id) (e_trace s) <= c_n1 c
       /\ exists q t l, In q (e_reqs s) /\ q_id q = id /\ send_times id (e_trace s) = t :: l /\ q_dl q = t + c_t1 c).
Proof.
  intros H Ht R. destruct (tx_known c s id to h ies cb H Ht) as (m & p & K & A & B & _ & _). rewrite <- B in R. split.
  - eapply req_timers; [exact K|exact R].
  - intros Hp. split; [|eapply req_pending_due; [exact K|exact Hp]].
    pose proof (known_obs _ _ _ _ _ _ _ K) as L. pose proof (kn_phase _ _ _ _ _ _ _ K) as P. rewrite has_id_find in Hp.
    destruct p as [k dl|dl|]; destruct P as [P P2]; rewrite P in Hp; try discriminate. destruct L as (_ & _ & _ & _ & L & _). obsfields. lia.
Qed.
Lemma spaced_last d l : forall t t0 l1 l2, spaced (fun a b => b = a) d l -> l = t :: l1 -> l = l2 ++ [t0] -> t = t0 + (lenN l - 1) * d.
Proof.
  induction l as [|x [|y l] IH]; intros t t0 l1 l2 Hs E1 E2; [discriminate|..].
  - destruct l2 as [|z [|]]; try discriminate. cbn in E2. injection E1 as ->. injection E2 as ->. change (lenN [t0]) with 1. lia.
  - destruct Hs as [Hx Hs]. injection E1 as -> <-. destruct l2 as [|z l2]; [discriminate|]. injection E2 as <- E2.
    pose proof (IH y t0 l l2 Hs eq_refl E2) as Hy. rewrite !lenN_cons in *.
    replace (1 + (1 + lenN l) - 1) with (1 + (1 + lenN l - 1)) by lia. rewrite N.mul_add_distr_r. lia.
Qed.
Theorem resolved_in_time c time evs s id to h ies cb : run c (ep_create time) evs = Ok s -> prompt c (ep_create time) evs ->
  In (OTx id to h ies cb) (e_trace s) -> is_response (hd_type h) = false -> has_id id (e_reqs s) = true ->
  exists t0 l, send_times id (e_trace s) = l ++ [t0] /\ e_now s <= t0 + (c_n1 c + 1) * c_t1 c.
Proof.
  intros E P Ht R Hp. destruct (run_prompt c true evs _ s (e_now s) (wf_create time) (create_none_overdue time) P (fun C => match Bool.diff_true_false C with end) E (N.le_refl _)) as [A Ho].
  assert (Hid : id < e_next s) by (eapply wf_about; [exact (adv_wf _ _ _ _ _ A)|exact Ht|cbn; apply N.eqb_refl]).
  destruct (lives_known _ _ _ _ _ (adv_born _ _ _ _ _ A id (N.le_0_l _) Hid)) as (m & p & K).
  destruct (known_tx _ _ _ _ _ _ _ _ _ _ _ K Ht) as (_ & <- & _ & _).
  destruct (req_pending_due _ _ _ _ _ _ _ K Hp) as (q & t & l & Hq & _ & Hl & Hd).
  assert (Hs : spaced (fun a b => b = a) (c_t1 c) (send_times id (e_trace s))).
  { eapply spaced_mono; [|eapply req_spaced; [exact K|exact R]]. intros a b X. exact (eq_eq _ _ _ X). }
  pose proof (req_sends _ _ _ _ _ _ _ K R) as Hc. rewrite <- send_times_len in Hc.
  assert (exists t0 l2, send_times id (e_trace s) = l2 ++ [t0]) as (t0 & l2 & E2).
  { rewrite Hl. destruct (exists_last (l := t :: l)) as (l2 & t0 & ->); [discriminate|]. eauto. }
  exists t0, l2. split; [assumption|]. pose proof (spaced_last _ _ _ _ _ _ Hs Hl E2) as Hx.
  assert (Hov : e_now s <= q_dl q) by (apply Ho, in_app_iff; tauto).
  assert (Hge : 1 <= lenN (send_times id (e_trace s))) by (rewrite Hl, lenN_cons; lia).
  revert Hc Hx Hge. generalize (lenN (send_times id (e_trace s))). intros n Hc Hx Hge.
  assert (n * c_t1 c <= (c_n1 c + 1) * c_t1 c) by (apply N.mul_le_mono_r; lia).
  assert ((n - 1) * c_t1 c + c_t1 c = n * c_t1 c) by (replace n with ((n - 1) + 1) at 2 by lia; rewrite N.mul_add_distr_r; lia). lia.
Qed.

(* ---------------------------------------------------------------- C34 *)
Lemma linv_resp_cached c D cl s id m p : linv c D cl id m (tr_of id (e_trace s)) p -> in_phase s id m p -> mi_resp m = true -> c_n1 c <> 0 -> c_t1 c <> 0 ->
  count (is_free id) (e_trace s) = 0 -> exists dl t, p = PCached dl /\ first_send id (e_trace s) t /\ dl = t + c_keep c /\ encoded c m.
Proof.
  intros [_ _ _ _ H] P R Hn Ht Hf. unfold first_send in *. rewrite obs_tr, send_times_tr_of in H. destruct p as [k dl|dl|].
  - destruct H as (H & _). congruence.
  - destruct H as (_ & _ & _ & _ & _ & _ & _ & (t & Ht0 & Hd) & He). exists dl, t. auto.
  - rewrite R in H. destruct H as (_ & _ & _ & _ & H & _). obsfields. specialize (H Hf). tauto.
Qed.
Lemma cached_stays c T id m tr dl tr' p' : T < dl -> lsteps c (D_le T) false id m tr (PCached dl) tr' p' -> p' = PCached dl.
Proof.
  intros H L. induction L as [|tr1 p1 tr2 p2 L IH Hs]; [reflexivity|]. subst p1. inversion Hs; subst; try reflexivity.
  - match goal with X : D_le _ _ _ |- _ => destruct X end. lia.
  - discriminate.
Qed.
Theorem response_kept c s evs s' id to h ies cb t0 : reachable c s -> run c s evs = Ok s' -> Forall (event_free is_close) evs ->
  c_n1 c <> 0 -> c_t1 c <> 0 -> In (OTx id to h ies cb) (e_trace s) -> is_response (hd_type h) = true -> count (is_free id) (e_trace s) = 0 ->
  first_send id (e_trace s) t0 -> e_now s' < t0 + c_keep c -> count (is_free id) (e_trace s') = 0 /\ has_id id (e_resps s') = true.
Proof.
  intros H E Hf Hn Ht Htx R Hfr Hs Hlt.
  destruct (tx_known c s id to h ies cb H Htx) as (m & p & K & A & B & _ & _). rewrite <- B in R.
  destruct (linv_resp_cached _ _ _ _ _ _ _ (kn_inv _ _ _ _ _ _ _ K) (kn_phase _ _ _ _ _ _ _ K) R Hn Ht Hfr) as (dl & t & -> & Hs' & -> & _).
  assert (t = t0) as ->. { unfold first_send in *. destruct Hs as (l & Hs). destruct Hs' as (l' & Hs'). rewrite Hs in Hs'. apply app_inj_tail in Hs'. symmetry. tauto. }
  pose proof (run_adv c false evs s s' (e_now s') (reach_wf c s H) (fun _ => Hf) E (N.le_refl _)) as Ad.
  assert (Hid : id < e_next s) by (eapply wf_about; [exact (reach_wf c s H)|exact Htx|cbn; apply N.eqb_refl]).
  destruct (adv_old _ _ _ _ _ Ad id m _ Hid (kn_phase _ _ _ _ _ _ _ K)) as (p' & L & P').
  assert (Hp' : p' = PCached (t0 + c_keep c)).
  { eapply cached_stays; [exact Hlt|exact L]. }
  assert (I' : linv c (D_le (e_now s')) false id m (tr_of id (e_trace s')) p').
  { eapply lsteps_inv; [|exact L]. eapply linv_cl; [| |exact (kn_inv _ _ _ _ _ _ _ K)]; [|discriminate].
    intros a b [X Y]. pose proof (adv_now _ _ _ _ _ Ad). split; lia. }
  subst p'. destruct I' as [_ _ _ _ I']. rewrite obs_tr in I'. destruct I' as (_ & _ & _ & _ & _ & I' & _). obsfields. split; [exact I'|].
  rewrite has_id_find. destruct P' as [_ ->]. reflexivity.
Qed.
(* the timer of a kept response fires not before its time, and then the response is gone *)
Theorem response_dropped c s id to h ies cb t0 snd k : reachable c s -> c_n1 c <> 0 -> c_t1 c <> 0 -> In (OTx id to h ies cb) (e_trace s) ->
  is_response (hd_type h) = true -> count (is_free id) (e_trace s) = 0 -> first_send id (e_trace s) t0 ->
  exists s', step c s (ETimer id snd k) = Ok s'
    /\ (t0 + c_keep c <= e_now s -> count (is_free id) (e_trace s') = 1 /\ has_id id (e_resps s') = false)
    /\ (e_now s < t0 + c_keep c -> s' = s).
Proof.
  intros H Hn Ht Htx R Hfr Hs.
  destruct (tx_known c s id to h ies cb H Htx) as (m & p & K & A & B & _ & _). rewrite <- B in R.
  destruct (linv_resp_cached _ _ _ _ _ _ _ (kn_inv _ _ _ _ _ _ _ K) (kn_phase _ _ _ _ _ _ _ K) R Hn Ht Hfr) as (dl & t & -> & Hs' & -> & _).
  assert (t = t0) as ->. { unfold first_send in *. destruct Hs as (l & Hs). destruct Hs' as (l' & Hs'). rewrite Hs in Hs'. apply app_inj_tail in Hs'. symmetry. tauto. }
  destruct (kn_phase _ _ _ _ _ _ _ K) as [P1 P2]. cbn [step]. rewrite P1, P2. cbn [q_dl].
  destruct (t0 + c_keep c <=? e_now s) eqn:Ed.
  - unfold resp_timer, queue_del_resp. cbn [q_id e_resps log]. rewrite has_id_find, P2. eexists. split; [reflexivity|]. split; [|intros; lia].
    intros _. cbn [e_trace log set_resps e_resps]. rewrite !count_cons. cbn [is_free]. rewrite N.eqb_refl. split; [lia|]. rewrite has_id_find, find_del, N.eqb_refl. reflexivity.
  - exists s. split; [reflexivity|]. split; [intros; lia|auto].
Qed.
Theorem response_not_longer c time evs s id to h ies cb t0 : run c (ep_create time) evs = Ok s -> prompt c (ep_create time) evs -> c_n1 c <> 0 -> c_t1 c <> 0 ->
  In (OTx id to h ies cb) (e_trace s) -> is_response (hd_type h) = true -> first_send id (e_trace s) t0 ->
  t0 + c_keep c < e_now s -> count (is_free id) (e_trace s) = 1.
Proof.
  intros E P Hn Ht Htx R Hs Hlt. destruct (run_prompt c true evs _ s (e_now s) (wf_create time) (create_none_overdue time) P (fun C => match Bool.diff_true_false C with end) E (N.le_refl _)) as [A Ho].
  assert (Hid : id < e_next s) by (eapply wf_about; [exact (adv_wf _ _ _ _ _ A)|exact Htx|cbn; apply N.eqb_refl]).
  destruct (lives_known _ _ _ _ _ (adv_born _ _ _ _ _ A id (N.le_0_l _) Hid)) as (m & p & K).
  destruct (known_tx _ _ _ _ _ _ _ _ _ _ _ K Htx) as (_ & <- & _ & _).
  destruct (N.eq_dec (count (is_free id) (e_trace s)) 0) as [Hz|Hz].
  - exfalso. destruct (linv_resp_cached _ _ _ _ _ _ _ (kn_inv _ _ _ _ _ _ _ K) (kn_phase _ _ _ _ _ _ _ K) R Hn Ht Hz) as (dl & t & -> & Hs' & -> & _).
    assert (t = t0) as ->. { unfold first_send in *. destruct Hs as (l & Hs). destruct Hs' as (l' & Hs'). rewrite Hs in Hs'. apply app_inj_tail in Hs'. symmetry. tauto. }
    destruct (kn_phase _ _ _ _ _ _ _ K) as [_ P2]. apply find_id_some in P2. destruct P2 as [P2 _].
    specialize (Ho _ ltac:(apply in_app_iff; right; exact P2)). cbn in Ho. lia.
  - pose proof (known_obs _ _ _ _ _ _ _ K) as L. fold (mi_resp m) in R. destruct p as [k dl|dl|].
    + destruct L as (L & _). congruence.
    + destruct L as (_ & _ & _ & _ & _ & L & _). obsfields. congruence.
    + rewrite R in L. destruct L as (_ & _ & L & _). obsfields. lia.
Qed.
