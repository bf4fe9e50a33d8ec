(* NetAssoc.v -- the lemmas behind C80: an accepting response, when it arrives, completes the association *)
From Verif Require Import Base BaseProofs GtlvModel DecEncModel DecEncSpec IesModel IesSpec IesProofs TablesModel MsgModel MsgSpec MsgProofs
  EndpointModel EndpointSpec EndpointProofs EndpointRun EndpointLife EndpointFinal EndpointProps EndpointExt EndpointProps2 EndpointProps3 NetModel NetProofs NetFinal NetProps
  CpPeerModel CpPeerSpec CpPeerProofs CpPeerProps NetLive.

Lemma ep_obs_in_app k a b o : In o (ep_obs k a) -> In o (ep_obs k (a ++ b)).
Proof. intros H. rewrite ep_obs_app. apply in_app_iff. left. exact H. Qed.

Lemma pending_not_freed c s id : reachable c s -> has_id id (e_reqs s) = true -> count (is_free id) (e_trace s) = 0.
Proof.
  intros R Hp. assert (Hid : id < e_next s).
  { rewrite has_id_find in Hp. destruct (find_id id (e_reqs s)) as [q|] eqn:Eq; [|discriminate]. apply find_id_some in Eq. destruct Eq as [Q1 <-].
    apply (wf_lt _ (reach_wf _ _ R)), in_app_iff. tauto. }
  destruct (reach_known c s id R Hid) as (m & p & K).
  pose proof (known_obs _ _ _ _ _ _ _ K) as L. pose proof (kn_phase _ _ _ _ _ _ _ K) as P. rewrite has_id_find in Hp.
  destruct p as [k dl|dl|]; destruct P as [P P2]; rewrite P in Hp; try discriminate. destruct L as (_ & _ & _ & _ & L & _). obsfields. lia.
Qed.

Section Net.
Variables (nw : nat -> node) (delay late : option N).
Notation cfg j := (n_cfg (nw j)).
Notation addr j := (n_addr (nw j)).
Notation exec := (wexec nw delay late).

Lemma runs_exec l1 w0 l2 w : exec l1 w0 -> wruns nw delay late w0 l2 w -> exec (l2 ++ l1) w.
Proof. intros X. induction 1 as [|l w e w' H IH S]; [exact X|]. cbn [app]. econstructor; [exact IH|exact S]. Qed.
Lemma runs_run w0 l2 w j : wruns nw delay late w0 l2 w -> run (cfg j) (w0 j) (history j l2) = Ok (w j).
Proof.
  induction 1 as [|l w e w' X IH S]; [reflexivity|]. unfold history in *. cbn [flat_map]. rewrite rev_app_distr, run_app, IH. cbn [bind].
  destruct S as [i ev s G A E|dt A]; cbn [node_event].
  - unfold upd. rewrite Nat.eqb_sym. destruct (Nat.eqb j i) eqn:Ei; [|reflexivity]. apply Nat.eqb_eq in Ei. subst i. cbn [rev app run]. rewrite E. reflexivity.
  - reflexivity.
Qed.
Theorem association_completes l1 w0 l2 w i k la l p : exec l1 w0 -> wruns nw delay late w0 l2 w -> never is_set_seq i (l2 ++ l1) -> never is_close i l2 -> few_draws w i ->
  c_n1 (cfg i) <> 0 -> c_t1 (cfg i) <> 0 -> e_open (w i) = true -> ep_obs k la = rev (e_trace (w0 i)) -> (forall id, ~ In (VOwnTx id) la) ->
  ep_obs k (la ++ l) = rev (e_trace (w i)) -> p_run k peer_alloc (la ++ l) = POk p -> p_pc p = PcIdle -> p_state p = PsWaitAssoc ->
  exists id nr, In (VOwnTx id) l /\ In (OTx id (k_remote k) assoc_hdr (assoc_ies k) true) (e_trace (w i)) /\ In (OSeq (Some id) nr) (e_trace (w i))
    /\ has_id id (e_reqs (w i)) = true
    /\ forall from d vs s h ies lb p', in_flight nw delay w from (addr i) d -> rx_datagram d = [RxMsg h ies] -> is_response (hd_type h) = true -> hd_seq h = nr ->
       accepts (Some (h, ies)) = true -> good_event (cfg i) (ERx from d vs) -> step (cfg i) (w i) (ERx from d vs) = Ok s ->
       ep_obs k (la ++ l ++ lb) = rev (e_trace s) -> p_run k peer_alloc (la ++ l ++ lb) = POk p' -> is_associated p' = true.
Proof.
  intros X1 X2 Hs Hcl Hd Hn Ht Ho Ea Na Eo Er Hpc Hst. pose proof (runs_exec _ _ _ _ X1 X2) as X.
  pose proof (exec_reach _ _ _ _ w X i) as Re. pose proof (history_free _ _ _ Hcl : Forall (event_free is_close) (history i l2)) as Fr.
  destruct (request_pending (cfg i) k (w0 i) la (history i l2) (w i) l p) as (id & I1 & I2);
    [exact (exec_reach _ _ _ _ w0 X1 i)|exact Ea|exact Na|exact (runs_run _ _ _ i X2)|exact Fr|exact Hn|exact Ht|exact (conj Re (conj Eo Er))|exact Hpc|exact Hst|].
  assert (I1' : In (VOwnTx id) (la ++ l)) by (apply in_app_iff; right; exact I1).
  pose proof (own_tx_in k _ id (w i) Eo I1') as B1.
  pose proof I2 as I3. rewrite has_id_find in I3. destruct (find_id id (e_reqs (w i))) as [q|] eqn:Eq; [|discriminate]. apply find_id_some in Eq. destruct Eq as [Q1 Q2].
  destruct (pending_seq _ _ q Re Q1) as [S1 _]. rewrite Q2 in S1.
  exists id, (hd_seq (q_h q)). split; [exact I1|]. split; [exact B1|]. split; [exact S1|]. split; [exact I2|].
  intros from d vs s h ies lb p' F Rx R Hq Ha G E Eo' Er'.
  assert (Hf : count (is_free id) (e_trace (w i)) = 0) by exact (pending_not_freed _ _ id Re I2).
  rewrite <- Hq in S1.
  destruct (answer_delivered nw delay late _ w i id _ _ _ true from d vs s h ies X Hs Hd Hn Ht Ho B1 eq_refl S1 Hf F Rx R G E) as (D & _ & _).
  specialize (D eq_refl).
  assert (Rs : reachable (cfg i) s) by (exact (reach_run _ _ [ERx from d vs] s Re ltac:(cbn [run]; rewrite E; reflexivity))).
  apply (proj2 (associated_iff (cfg i) k s (la ++ l ++ lb) p' (conj Rs (conj Eo' Er')))).
  exists id, (Some (h, ies)). split; [|exact Ha]. split; [rewrite !in_app_iff; auto|].
  rewrite in_rev, <- Eo' in D. apply ep_obs_back in D. destruct D as [D|(x & _ & D)]; [exact D|discriminate].
Qed.
End Net.
