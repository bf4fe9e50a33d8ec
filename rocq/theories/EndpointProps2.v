(* EndpointProps2.v -- lemmas behind the property theorems C33, C36, C38 .. C41: one received message, closing, no undefined
   behaviour *)
From Verif Require Import Base BaseProofs GtlvModel DecEncModel IesModel IesProofs TablesModel MsgModel RxProofs EndpointModel EndpointSpec EndpointProofs EndpointRun EndpointLife EndpointFinal EndpointProps EndpointExt.

Notation DT := (fun _ _ : N => True).

Lemma env_parts v : env_has is_close v = false ->
  calls_have is_close (v_ctx v) = false /\ calls_have is_close (v_resp v) = false /\ calls_have is_close (v_rx v) = false.
Proof. unfold env_has. rewrite !orb_false_iff. tauto. Qed.

(* without close, other messages are untouched *)
Lemma fr_keep c x s s' id : Fr c DT false x s s' -> id < e_next s -> x <> Some id ->
  tr_of id (e_trace s') = tr_of id (e_trace s) /\ ent id s' = ent id s.
Proof. intros F Hid Hx. destruct (fr_old _ _ _ _ _ _ F id Hid Hx) as [H|(C & _)]; [exact H|discriminate]. Qed.

Lemma not_hb h : is_response (hd_type h) = true -> (hd_type h =? msgt_heartbeat_req) = false.
Proof. intros R. destruct (hd_type h =? msgt_heartbeat_req) eqn:E; [|reflexivity]. apply N.eqb_eq in E. rewrite E in R. discriminate. Qed.

(* the immediate Heartbeat Response does not touch queues or messages *)
Lemma hb_queues s from h v s1 : WF s ->
  (if hd_type h =? msgt_heartbeat_req then tx_data s from (mkHdr 1 msgt_heartbeat_resp None None (hd_seq h)) [[VLeaf (IvNum (e_recov s))]] (v_hb v) else Ok s) = Ok s1 ->
  e_reqs s1 = e_reqs s /\ e_resps s1 = e_resps s /\ e_open s1 = e_open s /\ e_now s1 = e_now s /\ e_next s1 = e_next s
  /\ (exists new, e_trace s1 = new ++ e_trace s /\ Forall call_out new) /\ forall c D cl, Fr c D cl None s s1.
Proof.
  intros W E. split; [|split; [|split; [|split; [|split; [|split]]]]].
  7:{ intros c D cl. dif_in E Eh; [eapply tx_data_fr; [exact W|exact E]|injection E as <-; apply fr_refl; assumption]. }
  6:{ dif_in E Eh; [|injection E as <-; exists []; split; [reflexivity|constructor]].
      apply (tx_data_ext true true) in E. destruct E as [(n & A & B & _) _]. exists n. auto. }
  all: dif_in E Eh; [|injection E as <-; reflexivity]; unfold tx_data, send_data in E;
    destruct (encode_msg _ _); [destruct (e_open s && v_hb v)| |discriminate]; injection E as <-; reflexivity.
Qed.

Section Rx.
Variables (c : ep_cfg) (s : ep) (from : sa) (h : hdr) (ies : list (slot iev)) (v : env) (s' : ep).
Hypothesis (W : WF s) (E : handle_rx c s from h ies v = Ok s').

Lemma rx_unmatched : env_has is_close v = false -> queue_find (if is_response (hd_type h) then e_reqs s else e_resps s) h = None ->
  Fr c DT false None s s' /\ exists a b, e_trace s' = a ++ ODispatch from h ies None :: b ++ e_trace s /\ Forall call_out a /\ Forall call_out b.
Proof.
  intros Hc Q. destruct (env_parts v Hc) as (C1 & C2 & C3). unfold handle_rx in E. inv_bind E. rename x into s1.
  match goal with Hs : _ = Ok s1 |- _ => destruct (hb_queues s from h v s1 W Hs) as (A1 & A2 & A3 & A4 & A5 & (n1 & A6 & A7) & A8) end.
  rewrite A1, A2, Q in E. inv_bind E. rename x into s2.
  match goal with Hs : run_calls c (v_ctx v) s1 = Ok s2 |- _ => rename Hs into E1 end.
  pose proof (A8 c DT false) as F0. pose proof (run_calls_fr c DT false _ _ _ (fun _ => C1) (fr_wf _ _ _ _ _ _ F0) E1) as F1.
  set (s3 := log (ODispatch from h ies None) s2) in *.
  assert (F2 : Fr c DT false None s2 s3) by (apply fr_log_none; [exact (fr_wf _ _ _ _ _ _ F1)|reflexivity]).
  pose proof (run_calls_fr c DT false _ _ _ (fun _ => C3) (fr_wf _ _ _ _ _ _ F2) E) as F3. split.
  - do 3 (eapply fr_trans; [eassumption| |discriminate]). exact F3.
  - destruct (run_calls_ext c true true _ _ _ (conj (fun X => match Bool.diff_true_false X with end) (fun X => match Bool.diff_true_false X with end)) E1) as [(n2 & B1 & B2 & _) _].
    destruct (run_calls_ext c true true _ _ _ (conj (fun X => match Bool.diff_true_false X with end) (fun X => match Bool.diff_true_false X with end)) E) as [(n3 & G1 & G2 & _) _].
    exists n3, (n2 ++ n1). split; [|split; [assumption|apply Forall_app; split; assumption]].
    rewrite G1. unfold s3. cbn [e_trace log]. rewrite B1, A6, <- app_assoc. reflexivity.
Qed.

Lemma rx_resp_matched q : env_has is_close v = false -> is_response (hd_type h) = true -> queue_find (e_reqs s) h = Some q ->
  Fr c DT false (Some (q_id q)) s s' /\ ent (q_id q) s' = (None, None) /\
  tr_of (q_id q) (e_trace s') = OFree (q_id q) :: (if negb (q_cb q) || v_rc1 v then [ODispatch from h ies (Some (q_id q))] else [])
    ++ (if q_cb q then [OResp (q_id q) (Some (h, ies))] else []) ++ tr_of (q_id q) (e_trace s).
Proof.
  intros Hc R Q. destruct (env_parts v Hc) as (C1 & C2 & C3). unfold handle_rx in E. rewrite (not_hb h R), R in E. cbn [bind negb] in E. rewrite Q in E. inv_bind E. rename x into s2.
  match goal with Hs : run_calls c (v_ctx v) s = Ok s2 |- _ => rename Hs into E1 end.
  apply queue_find_some in Q. destruct Q as (Q1 & Q2 & Q3). set (id := q_id q) in *.
  pose proof (run_calls_fr c DT false _ _ _ (fun _ => C1) W E1) as F1.
  destruct (has_id id (e_reqs s2)) eqn:Hh; cbn [negb] in E; [|discriminate]. inv_bind E. inv_bind E.
  match goal with Ha : (if q_cb q then _ else _) = Ok ?x, Hb : (if negb (q_cb q) || _ then _ else _) = Ok ?y |- _ => rename Ha into X2; rename Hb into X3; rename x into s3; rename y into s4 end.
  assert (Hid : id < e_next s) by (apply (wf_lt s W); apply in_app_iff; tauto).
  pose proof (held_start c DT false s id W Hid) as M. unfold id in M at 3. rewrite (wf_ent_req DT s q W Q1) in M.
  eapply held_calls in M; [|exact F1].
  assert (LOG : forall T o s3 s5, held c DT false s id T (Some q, None) s3 -> about id o = true -> (forall i, about i o = true -> i = id) ->
    forall k, calls_have is_close k = false -> run_calls c k (log o s3) = Ok s5 -> held c DT false s id (o :: T) (Some q, None) s5).
  { intros T o s5 s6 Mx Ho Hi k Hk Ek. eapply held_log in Mx; [|exact Ho|exact Hi].
    eapply held_calls; [exact Mx|]. eapply run_calls_fr; [intros _; exact Hk|exact (fr_wf _ _ _ _ _ _ (hd_fr _ _ _ _ _ _ _ _ Mx))|exact Ek]. }
  assert (M3 : held c DT false s id ((if q_cb q then [OResp id (Some (h, ies))] else []) ++ tr_of id (e_trace s)) (Some q, None) s3).
  { destruct (q_cb q); [|injection X2 as <-; exact M]. eapply LOG; [exact M|cbn; apply N.eqb_refl|cbn; intros; symmetry; apply N.eqb_eq; assumption|exact C2|exact X2]. }
  set (disp := negb (q_cb q) || v_rc1 v) in *.
  assert (M4 : held c DT false s id ((if disp then [ODispatch from h ies (Some id)] else []) ++ (if q_cb q then [OResp id (Some (h, ies))] else []) ++ tr_of id (e_trace s)) (Some q, None) s4).
  { destruct disp; [|injection X3 as <-; exact M3]. eapply LOG; [exact M3|cbn; apply N.eqb_refl|cbn; intros; symmetry; apply N.eqb_eq; assumption|exact C3|exact X3]. }
  destruct (held_del_req _ _ _ _ _ _ _ _ _ M4 E) as (F & T & En). split; [exact F|]. split; [exact En|exact T].
Qed.

Lemma rx_req_matched q : is_response (hd_type h) = false -> queue_find (e_resps s) h = Some q ->
  exists s2 new, e_trace s2 = new ++ e_trace s /\ Forall call_out new /\ e_now s2 = e_now s
    /\ (calls_have is_close (v_ctx v) = false -> e_open s2 = e_open s)
    /\ s' = fst (send_data s2 (Some (q_id q)) (q_remote q) (q_enc q) (v_resend v)).
Proof.
  intros R Q. unfold handle_rx in E. inv_bind E. rename x into s1.
  match goal with Hs : _ = Ok s1 |- _ => destruct (hb_queues s from h v s1 W Hs) as (A1 & A2 & A3 & A4 & A5 & (n1 & A6 & A7) & A8) end.
  rewrite R, A2, Q in E. inv_bind E. rename x into s2. match goal with Hs : run_calls c (v_ctx v) s1 = Ok s2 |- _ => rename Hs into E1 end. cbn [negb] in E.
  dif_in E Hh; [|discriminate]. injection E as <-. exists s2.
  destruct (run_calls_ext c true true _ _ _ (conj (fun X => match Bool.diff_true_false X with end) (fun X => match Bool.diff_true_false X with end)) E1) as [(n2 & B1 & B2 & _) _].
  exists (n2 ++ n1). split; [rewrite B1, A6; apply app_assoc|]. split; [apply Forall_app; split; assumption|]. split; [|split; [|reflexivity]].
  - pose proof (run_calls_fr c DT true _ _ _ (fun X => match Bool.diff_true_false X with end) (fr_wf _ _ _ _ _ _ (A8 c DT true)) E1) as F. rewrite (fr_now _ _ _ _ _ _ F). exact A4.
  - intros C. destruct (run_calls_ext c false true _ _ _ (conj (fun _ => C) (fun X => match Bool.diff_true_false X with end)) E1) as [_ B3]. rewrite B3 by reflexivity. exact A3.
Qed.
End Rx.

Lemma queue_find_none l h q : queue_find l h = None -> In q l -> is_response (hd_type (q_h q)) = negb (is_response (hd_type h)) -> hd_seq (q_h q) <> hd_seq h.
Proof.
  unfold queue_find. intros H Hq Hr Hs. pose proof (find_none _ _ H q Hq) as X. cbv beta in X. rewrite Hs, N.eqb_refl, Hr in X.
  destruct (is_response (hd_type h)); discriminate.
Qed.
Lemma send_times_in id t tr : In t (send_times id tr) -> exists to bs, In (OSend (Some id) t to bs) tr.
Proof.
  induction tr as [|o tr IH]; [intros []|]. destruct o as [| |[i|] t' to bs| | | | | |]; cbn;
    try (intros H; destruct (IH H) as (a & b & X); exists a, b; right; exact X).
  destruct (i =? id) eqn:E; [|intros H; destruct (IH H) as (a & b & X); exists a, b; right; exact X].
  apply N.eqb_eq in E. subst i. intros [->|H]; [exists to, bs; left; reflexivity|]. destruct (IH H) as (a & b & X). exists a, b. right. exact X.
Qed.

(* ---------------------------------------------------------------- C33 *)

Lemma kept_entry c s id nr : reachable c s -> c_n1 c <> 0 -> c_t1 c <> 0 -> kept_response s id nr ->
  exists q, In q (e_resps s) /\ q_id q = id /\ hd_seq (q_h q) = nr /\ is_response (hd_type (q_h q)) = true.
Proof.
  intros H Hn Ht (to & rh & ries & cb & Htx & R & Hs & Hf).
  destruct (tx_known c s id to rh ries cb H Htx) as (m & p & K & A & B & _ & _). rewrite <- B in R.
  destruct (linv_resp_cached _ _ _ _ _ _ _ (kn_inv _ _ _ _ _ _ _ K) (kn_phase _ _ _ _ _ _ _ K) R Hn Ht Hf) as (dl & t & -> & _ & _ & En).
  destruct (kn_phase _ _ _ _ _ _ _ K) as [_ P]. apply find_id_some in P. destruct P as [P _]. eexists. split; [exact P|]. cbn.
  split; [reflexivity|]. split; [|exact R]. destruct En as [_ En]. rewrite En by exact R. rewrite B. exact Hs.
Qed.
Lemma entry_kept c s q : reachable c s -> In q (e_resps s) ->
  kept_response s (q_id q) (hd_seq (q_h q)) /\ exists t, In (OSend (Some (q_id q)) t (q_remote q) (q_enc q)) (e_trace s).
Proof.
  intros H Hq. pose proof (reach_wf c s H) as W. assert (Hid : q_id q < e_next s) by (apply (wf_lt s W), in_app_iff; tauto).
  destruct (reach_known c s _ H Hid) as (m & p & K).
  destruct (phase_resp s _ m p q W (kn_phase _ _ _ _ _ _ _ K) (wf_ent_resp DT s q W Hq)) as (-> & Eq & R).
  pose proof (known_obs _ _ _ _ _ _ _ K) as (_ & _ & _ & _ & _ & Fr0 & _ & (t & (l & Hl) & _) & En). split.
  - exists (mi_to m), (mi_h m), (mi_ies m), (mi_cb m). split; [|split; [exact R|split]].
    + apply (proj1 (in_tr_of (q_id q) _ _ (N.eqb_refl _ : about (q_id q) (OTx (q_id q) _ _ _ _) = true))). exact (li_txin _ _ _ _ _ _ _ (kn_inv _ _ _ _ _ _ _ K)).
    + rewrite Eq. cbn. destruct En as [_ En]. symmetry. apply En. exact R.
    + exact Fr0.
  - exists t. assert (Hin : exists to bs, In (OSend (Some (q_id q)) t to bs) (e_trace s)).
    { apply send_times_in. rewrite Hl. apply in_app_iff. right. left. reflexivity. }
    destruct Hin as (to & bs & Hin). destruct (known_sends _ _ _ _ _ _ _ K _ _ _ Hin) as (-> & -> & _). rewrite Eq. cbn. exact Hin.
Qed.
Lemma count_dispatch_calls new tr : Forall call_out new -> count is_dispatch (new ++ tr) = count is_dispatch tr.
Proof.
  intros H. induction H as [|o l Ho H IH]; [reflexivity|]. cbn [app]. rewrite count_cons, IH. destruct o; cbn in *; try lia; tauto.
Qed.
Theorem answered_from_cache c s from h ies v s' id : reachable c s -> c_n1 c <> 0 -> c_t1 c <> 0 ->
  is_response (hd_type h) = false -> kept_response s id (hd_seq h) -> handle_rx c s from h ies v = Ok s' ->
  count is_dispatch (e_trace s') = count is_dispatch (e_trace s)
  /\ (e_open s = true -> v_resend v = true -> calls_have is_close (v_ctx v) = false ->
      exists id1 t to bs rest, e_trace s' = OSend (Some id1) (e_now s) to bs :: rest /\ In (OSend (Some id1) t to bs) (e_trace s)
        /\ kept_response s id1 (hd_seq h) /\ ((forall i, kept_response s i (hd_seq h) -> i = id) -> id1 = id)).
Proof.
  intros H Hn Ht R Hk E. pose proof (reach_wf c s H) as W. destruct (kept_entry c s id _ H Hn Ht Hk) as (q0 & Q1 & Q2 & Q3 & Q4).
  destruct (queue_find (e_resps s) h) as [q|] eqn:Q.
  2:{ exfalso. apply (queue_find_none _ _ _ Q Q1); [rewrite R; exact Q4|exact Q3]. }
  destruct (rx_req_matched c s from h ies v s' W E q R Q) as (s2 & new & A1 & A2 & A3 & A4 & ->).
  destruct (queue_find_some _ _ _ Q) as (P1 & P2 & P3). destruct (entry_kept c s q H P1) as [Kq (t & Hs)]. rewrite P3 in Kq. split.
  - unfold send_data. destruct (e_open s2 && v_resend v); cbn [fst e_trace log]; rewrite count_cons; cbn [is_dispatch]; rewrite A1, count_dispatch_calls by assumption; lia.
  - intros Ho Hv Hc. exists (q_id q), t, (q_remote q), (q_enc q), (e_trace s2). split; [|split; [exact Hs|split; [exact Kq|intros U; exact (U _ Kq)]]].
    unfold send_data. rewrite (A4 Hc), Ho, Hv, A3. reflexivity.
Qed.

(* ---------------------------------------------------------------- C36 *)
Theorem response_completes_one c s from h ies v s' q : reachable c s -> env_has is_close v = false -> is_response (hd_type h) = true ->
  handle_rx c s from h ies v = Ok s' -> In q (e_reqs s) -> hd_seq (q_h q) = hd_seq h ->
  (forall q', In q' (e_reqs s) -> hd_seq (q_h q') = hd_seq h -> q' = q) ->
  tr_of (q_id q) (e_trace s') = OFree (q_id q) :: (if negb (q_cb q) || v_rc1 v then [ODispatch from h ies (Some (q_id q))] else [])
    ++ (if q_cb q then [OResp (q_id q) (Some (h, ies))] else []) ++ tr_of (q_id q) (e_trace s)
  /\ has_id (q_id q) (e_reqs s') = false
  /\ forall id, id < e_next s -> id <> q_id q -> tr_of id (e_trace s') = tr_of id (e_trace s)
       /\ find_id id (e_reqs s') = find_id id (e_reqs s) /\ find_id id (e_resps s') = find_id id (e_resps s).
Proof.
  intros H Hc R E Hq Hs Hu. pose proof (reach_wf c s H) as W. destruct (queue_find (e_reqs s) h) as [q1|] eqn:Q.
  2:{ exfalso. apply (queue_find_none _ _ _ Q Hq); [rewrite R; exact (wf_rq s W q Hq)|exact Hs]. }
  destruct (queue_find_some _ _ _ Q) as (P1 & P2 & P3). pose proof (Hu q1 P1 P3) as ->.
  destruct (rx_resp_matched c s from h ies v s' W E q Hc R Q) as (F & En & T). split; [exact T|]. split.
  - rewrite has_id_find. unfold ent in En. injection En as -> _. reflexivity.
  - intros id Hid Hne. destruct (fr_keep _ _ _ _ id F Hid) as [A B]; [congruence|]. unfold ent in B. injection B as B1 B2. auto.
Qed.
Theorem unmatched_response c s from h ies v s' : reachable c s -> env_has is_close v = false -> is_response (hd_type h) = true ->
  handle_rx c s from h ies v = Ok s' -> (forall q, In q (e_reqs s) -> hd_seq (q_h q) <> hd_seq h) ->
  (forall id, id < e_next s -> tr_of id (e_trace s') = tr_of id (e_trace s)
       /\ find_id id (e_reqs s') = find_id id (e_reqs s) /\ find_id id (e_resps s') = find_id id (e_resps s))
  /\ exists a b, e_trace s' = a ++ ODispatch from h ies None :: b ++ e_trace s.
Proof.
  intros H Hc R E Hu. pose proof (reach_wf c s H) as W. destruct (queue_find (e_reqs s) h) as [q|] eqn:Q.
  { exfalso. destruct (queue_find_some _ _ _ Q) as (P1 & P2 & P3). exact (Hu q P1 P3). }
  destruct (rx_unmatched c s from h ies v s' W E Hc) as (F & a & b & T & _ & _); [rewrite R; exact Q|]. split; [|exists a, b; exact T].
  intros id Hid. destruct (fr_keep _ _ _ _ id F Hid) as [A B]; [discriminate|]. unfold ent in B. injection B as B1 B2. auto.
Qed.

(* a new request (no kept response with its sequence number) is dispatched once *)
Theorem new_request_dispatched c s from h ies v s' : reachable c s -> c_n1 c <> 0 -> c_t1 c <> 0 -> env_has is_close v = false -> is_response (hd_type h) = false ->
  (forall id, ~ kept_response s id (hd_seq h)) -> handle_rx c s from h ies v = Ok s' ->
  exists a b, e_trace s' = a ++ ODispatch from h ies None :: b ++ e_trace s /\ count is_dispatch (a ++ b) = 0.
Proof.
  intros H Hn Ht Hc R Hk E. pose proof (reach_wf c s H) as W. destruct (queue_find (e_resps s) h) as [q|] eqn:Q.
  { exfalso. destruct (queue_find_some _ _ _ Q) as (P1 & P2 & P3). destruct (entry_kept c s q H P1) as [Kq _]. rewrite P3 in Kq. exact (Hk _ Kq). }
  destruct (rx_unmatched c s from h ies v s' W E Hc) as (F & a & b & T & A & B); [rewrite R; exact Q|]. exists a, b. split; [exact T|].
  rewrite count_dispatch_calls by exact A. rewrite <- (app_nil_r b), count_dispatch_calls by exact B. reflexivity.
Qed.
