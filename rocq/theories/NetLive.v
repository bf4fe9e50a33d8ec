(* NetLive.v -- the lemmas behind C73 .. C75: what arrives is delivered; an association at one end is one at the other *)
From Verif Require Import Base BaseProofs GtlvModel DecEncModel DecEncSpec IesModel IesSpec IesProofs TablesModel MsgModel MsgSpec MsgProofs MsgEncProofs RxProofs
  EndpointModel EndpointSpec EndpointProofs EndpointRun EndpointLife EndpointFinal EndpointProps EndpointExt EndpointProps2 EndpointProps3 NetModel NetProofs NetFinal NetProps
  CpPeerModel CpPeerSpec CpPeerProofs CpPeerProps.

Lemma life_seq c D cl id m tr p : life c D cl id m tr p -> forall n, In (OSeq (Some id) n) tr -> n = mi_nr m.
Proof.
  intros (tr0 & p0 & Hb & Hl). assert (H0 : forall n, In (OSeq (Some id) n) tr0 -> n = mi_nr m).
  { intros n Hin. destruct Hb; cbn [In] in Hin; rewrite ?in_app_iff in Hin; cbn [In] in Hin;
    repeat match goal with
    | H : _ \/ _ |- _ => destruct H as [H|H]
    | H : In _ (fail_cb id m) |- _ => apply in_fail in H; discriminate
    | H : In _ (tx_start id m) |- _ => apply in_start in H; destruct H as [H|H]; [injection H as ->; reflexivity|discriminate]
    | _ => try discriminate
    end. }
  clear Hb. induction Hl as [|tr1 p1 tr2 p2 Hl IH Hs]; [exact H0|]. intros n Hin.
  destruct Hs; cbn [In] in Hin; rewrite ?in_app_iff in Hin; cbn [In] in Hin;
    repeat match goal with
    | H : _ \/ _ |- _ => destruct H as [H|H]
    | H : In _ (fail_cb id m) |- _ => apply in_fail in H; discriminate
    | H : In _ (if ?b then _ else _) |- _ => destruct b; cbn in H
    | H : In _ tr1 |- _ => exact (IH _ H)
    | H : In _ (_ ++ _) |- _ => apply in_app_iff in H
    | H : In _ ?t |- _ => exact (IH _ H)
    | _ => try discriminate; try contradiction
    end.
Qed.

Section Net.
Variables (nw : nat -> node) (delay late : option N).
Notation cfg j := (n_cfg (nw j)).
Notation addr j := (n_addr (nw j)).
Notation exec := (wexec nw delay late).
Hypothesis distinct : forall i k, addr i = addr k -> i = k.

Lemma flight_from_msg l w from j d h ies : exec l w -> in_flight nw delay w from (addr j) d -> rx_datagram d = [RxMsg h ies] -> from_msg nw w from (addr j) h ies.
Proof.
  intros X F Rx. destruct (in_flight_msg nw delay w from j d (exec_reach _ _ _ l w X) (exec_chained _ _ _ l w X) F) as (h' & ies' & E & M).
  rewrite Rx in E. injection E as <- <-. exact M.
Qed.
Lemma step_rx c s from d vs s' h ies : e_open s = true -> rx_datagram d = [RxMsg h ies] -> step c s (ERx from d vs) = Ok s' -> handle_rx c s from h ies (vs 0%nat) = Ok s'.
Proof. intros Ho Rx E. cbn [step] in E. rewrite Ho, Rx in E. cbn [handle_all] in E. destruct (handle_rx c s from h ies (vs 0%nat)) as [x|e|u]; [exact E|discriminate|discriminate]. Qed.

Theorem request_delivered l w i j d vs s h ies : exec l w -> only_answers (w j) -> never is_set_seq i l -> few_draws w i ->
  c_n1 (cfg j) <> 0 -> c_t1 (cfg j) <> 0 -> e_open (w j) = true -> in_flight nw delay w (addr i) (addr j) d -> rx_datagram d = [RxMsg h ies] ->
  is_response (hd_type h) = false -> hd_type h <> 1 ->
  (forall f h' ies' r, In (ODispatch f h' ies' r) (e_trace (w j)) -> is_response (hd_type h') = false -> hd_seq h' = hd_seq h -> f = addr i) ->
  good_event (cfg j) (ERx (addr i) d vs) -> step (cfg j) (w j) (ERx (addr i) d vs) = Ok s ->
  exists r, In (ODispatch (addr i) h ies r) (e_trace s).
Proof.
  intros X Oa Hs Hd Hn Ht Ho F Rx R T U G E. pose proof (step_rx _ _ _ _ _ _ _ _ Ho Rx E) as E1.
  pose proof (exec_reach _ _ _ l w X) as Re. pose proof (exec_chained _ _ _ l w X) as Ch.
  destruct (queue_find (e_resps (w j)) h) as [q|] eqn:Q.
  - destruct (queue_find_some _ _ _ Q) as (P1 & P2 & P3). destruct (entry_kept _ _ q (Re j) P1) as [(to & rh & ries & cb & K1 & K2 & K3 & _) _]. rewrite P3 in K3.
    destruct (in_split _ _ K1) as (ta & tb & Et). destruct (Oa _ _ _ _ _ _ _ Et K2) as (h' & ies' & r & D1 & D2 & D3).
    assert (D1' : In (ODispatch to h' ies' r) (e_trace (w j))) by (rewrite Et; apply in_app_iff; right; right; exact D1).
    assert (S' : hd_seq h' = hd_seq h) by congruence. pose proof (U _ _ _ _ D1' D2 S') as ->.
    pose proof (chain_in _ _ _ _ _ _ (Ch j) D1') as F'. cbn in F'.
    pose proof (request_origin nw delay late distinct l w i _ h' ies' X F' D2) as O'.
    pose proof (request_origin nw delay late distinct l w i _ h ies X (flight_from_msg l w _ j d h ies X F Rx) R) as O.
    rewrite S' in O'. destruct O as [(id & h0 & ies0 & cb0 & A1 & A2 & A3)|(A & _)]; [|contradiction].
    destruct O' as [(id' & h0' & ies0' & cb0' & B1 & B2 & B3)|(B1 & B2)].
    + pose proof (seq_unique nw delay late l w i _ _ _ X Hs Hd A3 B3) as Ei. injection Ei as <-.
      destruct (tx_unique _ _ _ _ _ _ _ _ _ _ _ (Re i) A1 B1) as (_ & -> & -> & _). rewrite <- A2 in B2. injection B2 as -> ->.
      exists r. destruct (step_older nw delay late w (WNode j (ERx (addr i) d vs)) _ Re Ch (W_node _ _ _ _ _ _ _ G F E) j) as (new & En).
      unfold upd in En. rewrite Nat.eqb_refl in En. rewrite En. apply in_app_iff. right. exact D1'.
    + pose proof (seq_unique nw delay late l w i _ _ _ X Hs Hd A3 B2). discriminate.
  - assert (Hk : forall id, ~ kept_response (w j) id (hd_seq h)).
    { intros id Hk. destruct (kept_entry _ _ id (hd_seq h) (Re j) Hn Ht Hk) as (q & Q1 & Q2 & Q3 & Q4). apply (queue_find_none _ _ _ Q Q1); [rewrite R; exact Q4|exact Q3]. }
    destruct (G 0%nat) as (G1 & _).
    destruct (new_request_dispatched _ _ _ _ _ _ _ (Re j) Hn Ht G1 R Hk E1) as (a & b & -> & _). exists None. apply in_app_iff. right. left. reflexivity.
Qed.

Theorem answer_delivered l w i id to h0 ies0 cb from d vs s h ies : exec l w -> never is_set_seq i l -> few_draws w i ->
  c_n1 (cfg i) <> 0 -> c_t1 (cfg i) <> 0 -> e_open (w i) = true ->
  In (OTx id to h0 ies0 cb) (e_trace (w i)) -> is_response (hd_type h0) = false -> In (OSeq (Some id) (hd_seq h)) (e_trace (w i)) -> count (is_free id) (e_trace (w i)) = 0 ->
  in_flight nw delay w from (addr i) d -> rx_datagram d = [RxMsg h ies] -> is_response (hd_type h) = true ->
  good_event (cfg i) (ERx from d vs) -> step (cfg i) (w i) (ERx from d vs) = Ok s ->
  (cb = true -> In (OResp id (Some (h, ies))) (e_trace s)) /\ (cb = false -> In (ODispatch from h ies (Some id)) (e_trace s)) /\ count (is_free id) (e_trace s) = 1.
Proof using Type.
  clear distinct.
  intros X Hs Hd Hn Ht Ho Htx R0 Hq Hf F Rx R G E. pose proof (step_rx _ _ _ _ _ _ _ _ Ho Rx E) as E1.
  pose proof (exec_reach _ _ _ l w X) as Re. pose proof (reach_wf _ _ (Re i)) as W.
  destruct (pending_or_resolved _ (w i) [] (w i) id _ _ _ _ (Re i) eq_refl (Forall_nil _) Hn Ht Hf Htx R0) as [(P & _ & _)|(_ & P & _)]; [|lia].
  rewrite has_id_find in P. destruct (find_id id (e_reqs (w i))) as [q|] eqn:Eq; [|discriminate]. apply find_id_some in Eq. destruct Eq as [Q1 Q2].
  destruct (pending_seq _ _ q (Re i) Q1) as [S1 _].
  assert (Hid : q_id q < e_next (w i)) by (apply (wf_lt _ W), in_app_iff; tauto).
  destruct (reach_known _ _ _ (Re i) Hid) as (m & p & K).
  destruct (phase_req _ _ m p q W (kn_phase _ _ _ _ _ _ _ K) (wf_ent_req (D_le 0) _ q W Q1)) as (_ & Em & Rm).
  rewrite Q2 in *. destruct (known_tx _ _ _ _ _ _ _ _ _ _ _ K Htx) as (_ & _ & _ & Ecb).
  assert (Hqs : hd_seq (q_h q) = hd_seq h).
  { pose proof (life_seq _ _ _ _ _ _ _ (kn_life _ _ _ _ _ _ _ K)) as A.
    rewrite (A (hd_seq h)), (A (hd_seq (q_h q))); [reflexivity|apply in_tr_of; [cbn; apply N.eqb_refl|assumption]..]. }
  destruct (G 0%nat) as (G1 & _).
  destruct (response_completes_one _ _ _ _ _ _ _ q (Re i) G1 R E1 Q1 Hqs) as (T & _ & _).
  { intros q' Hq' Hs'. destruct (pending_seq _ _ q' (Re i) Hq') as [S2 _]. rewrite Hs' in S2.
    pose proof (seq_unique nw delay late l w i _ _ _ X Hs Hd Hq S2) as Ei. injection Ei as Ei.
    pose proof (find_id_nodup _ q (wf_reqs _ W) Q1) as F1. pose proof (find_id_nodup _ q' (wf_reqs _ W) Hq') as F2. rewrite Q2 in F1. rewrite <- Ei in F2. congruence. }
  rewrite Q2 in T. assert (Ec : q_cb q = cb) by (rewrite Em, <- Ecb; reflexivity). rewrite Ec in T. split; [|split].
  - intros ->. apply (in_tr_of id); [cbn; apply N.eqb_refl|]. rewrite T. right. apply in_app_iff. right. left. reflexivity.
  - intros ->. assert (In (ODispatch from h ies (Some id)) (tr_of id (e_trace s))) by (rewrite T; right; left; reflexivity).
    apply filter_In in H. exact (proj1 H).
  - rewrite <- (count_tr_of _ id) by (intros o; destruct o; cbn; congruence). rewrite T, count_cons, !count_app, (count_tr_of _ id) by (intros o; destruct o; cbn; congruence).
    rewrite Hf. cbn [is_free]. rewrite N.eqb_refl. destruct (negb cb || v_rc1 (vs 0%nat)), cb; reflexivity.
Qed.

(* ---------------------------------------------------------------- C75 *)
Lemma own_tx_in k l id s : ep_obs k l = rev (e_trace s) -> In (VOwnTx id) l -> In (OTx id (k_remote k) assoc_hdr (assoc_ies k) true) (e_trace s).
Proof.
  clear. intros E H. rewrite in_rev, <- E. clear E. induction l as [|v l IH]; [destruct H|]. destruct H as [->|H]; [left; reflexivity|].
  specialize (IH H). destruct v; cbn; auto.
Qed.
Lemma ep_in k l o s : ep_obs k l = rev (e_trace s) -> In (VEp o) l -> In o (e_trace s).
Proof.
  clear. intros E H. rewrite in_rev, <- E. clear E. induction l as [|v l IH]; [destruct H|]. destruct H as [->|H]; [left; reflexivity|].
  specialize (IH H). destruct v; cbn; auto.
Qed.
Theorem association_mutual lw w i k l p : exec lw w -> (forall j, only_answers (w j)) -> never is_set_seq i lw -> few_draws w i ->
  ep_obs k l = rev (e_trace (w i)) -> p_run k peer_alloc l = POk p -> is_associated p = true ->
  exists j nr r, addr j = k_remote k
    /\ In (ODispatch (addr i) (mkHdr 1 5 None None nr) [[VLeaf (c_node (cfg i))]; [VLeaf (IvNum (k_recov k))]; []; [VLeaf (IvBits [16])]] r) (e_trace (w j))
    /\ exists rid rh ries rcb, In (OTx rid (addr i) rh ries rcb) (e_trace (w j)) /\ is_response (hd_type rh) = true /\ hd_seq rh = nr
       /\ accepts (Some (filled (cfg j) rh ries nr)) = true.
Proof.
  intros X Oa Hs Hd Eo Er Ha.
  destruct (proj1 (associated_iff (cfg i) k (w i) l p (conj (exec_reach _ _ _ lw w X i) (conj Eo Er))) Ha) as (id & [[h ies]|] & [A1 A2] & A3); [|discriminate].
  pose proof (own_tx_in k l id (w i) Eo A1) as B1. pose proof (ep_in k l _ (w i) Eo A2) as B2.
  destruct (answer_origin nw delay late distinct lw w i id _ _ _ _ h ies X Oa Hs Hd B1 B2) as (j & C1 & C2 & C3 & [(rid & rh & ries & rcb & r & D1 & D2 & D3 & D4)|[_ D]]); [|discriminate].
  exists j, (hd_seq h), r. split; [exact C1|]. split; [exact D4|]. exists rid, rh, ries, rcb. split; [exact D1|]. split; [|split; [exact D3|rewrite <- D2; exact A3]].
  injection D2 as D2 _. rewrite D2 in C3. exact C3.
Qed.
End Net.
