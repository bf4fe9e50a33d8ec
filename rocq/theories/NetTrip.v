(* NetTrip.v -- the lemmas behind C83: one round trip completes a request *)
From Verif Require Import Base BaseProofs GtlvModel DecEncModel DecEncSpec IesModel IesSpec IesProofs TablesModel MsgModel MsgSpec MsgProofs MsgEncProofs RxProofs
  EndpointModel EndpointSpec EndpointProofs EndpointRun EndpointLife EndpointFinal EndpointProps EndpointExt EndpointProps2 EndpointProps3 NetModel NetProofs NetFinal NetProps NetLive.

Section Net.
Variables (nw : nat -> node) (delay late : option N).
Notation cfg j := (n_cfg (nw j)).
Notation addr j := (n_addr (nw j)).
Notation exec := (wexec nw delay late).

Lemma runs_app w0 l1 w1 l2 w2 : wruns nw delay late w0 l1 w1 -> wruns nw delay late w1 l2 w2 -> wruns nw delay late w0 (l2 ++ l1) w2.
Proof. intros A B. induction B as [|l w e w' B IH S]; [exact A|]. cbn [app]. econstructor; [exact IH|exact S]. Qed.
Lemma runs_older l1 w1 l2 w2 : exec l1 w1 -> wruns nw delay late w1 l2 w2 -> forall i, exists new, e_trace (w2 i) = new ++ e_trace (w1 i).
Proof.
  intros X B. induction B as [|l w e w' B IH S]; intros i; [exists []; reflexivity|]. pose proof (runs_app _ _ _ _ _ X B) as X1.
  destruct (step_older nw delay late w e w' (exec_reach _ _ _ _ _ X1) (exec_chained _ _ _ _ _ X1) S i) as (n1 & E1). destruct (IH i) as (n2 & E2).
  exists (n1 ++ n2). rewrite E1, E2, app_assoc. reflexivity.
Qed.

(* the sequence number of a datagram of request [id] *)
Lemma request_datagram l w i id to h0 ies0 cb t d : exec l w -> In (OTx id to h0 ies0 cb) (e_trace (w i)) -> is_response (hd_type h0) = false ->
  In (OSend (Some id) t to d) (e_trace (w i)) ->
  exists h ies, rx_datagram d = [RxMsg h ies] /\ hd_type h = hd_type h0 /\ In (OSeq (Some id) (hd_seq h)) (e_trace (w i)).
Proof.
  intros X Htx R Hs. destruct (sent_datagram nw w i _ t _ d (exec_reach _ _ _ l w X i) (exec_chained _ _ _ l w X) Hs) as (h & ies & G & En & K).
  destruct (what_is_sent _ _ _ _ _ _ _ _ _ _ (exec_reach _ _ _ l w X i) Htx Hs) as (_ & nr & E & Hn). rewrite R in Hn.
  destruct (good_enc _ _ G) as (d' & E1 & E2). assert (d' = d) by congruence. subst d'.
  pose proof (chain_in _ _ _ _ _ _ (exec_chained _ _ _ l w X i) Htx) as G0. cbn in G0.
  pose proof (chain_in _ _ _ _ _ _ (exec_chained _ _ _ l w X i) Hn) as Q. cbn in Q.
  assert (G1 : good_msg (mkHdr (hd_version h0) (hd_type h0) (hd_prio h0) (hd_seid h0) nr) (put_node_id (c_node (cfg i)) (hd_type h0) ies0)) by (apply good_seq; [exact G0|lia]).
  destruct (good_unique _ _ _ _ _ G G1 En E) as [-> ->]. eexists. eexists. split; [exact E2|]. split; [reflexivity|exact Hn].
Qed.

(* a response that was sent under [rid] is a message with the response's sequence number *)
Lemma response_datagram w j rid to rh ries cb t to' d : reachable (cfg j) (w j) -> chained nw w -> In (OTx rid to rh ries cb) (e_trace (w j)) -> is_response (hd_type rh) = true ->
  In (OSend (Some rid) t to' d) (e_trace (w j)) ->
  to' = to /\ exists h ies, rx_datagram d = [RxMsg h ies] /\ is_response (hd_type h) = true /\ hd_seq h = hd_seq rh.
Proof.
  intros Re Ch Htx R Hs. destruct (what_is_sent _ _ _ _ _ _ _ _ _ _ Re Htx Hs) as (-> & nr & E & Hn). rewrite R in Hn. subst nr. split; [reflexivity|].
  pose proof (chain_in _ _ _ _ _ _ (Ch j) Htx) as G0. cbn in G0.
  replace (mkHdr (hd_version rh) (hd_type rh) (hd_prio rh) (hd_seid rh) (hd_seq rh)) with rh in E by (destruct rh; reflexivity).
  destruct (good_enc _ _ G0) as (d' & E1 & E2). assert (d' = d) by congruence. subst d'. eexists. eexists. split; [exact E2|]. split; [exact R|reflexivity].
Qed.

(* a request that arrives is answered, at once *)
Theorem request_answered l w i j d vs s h ies : exec l w -> only_answers (w j) -> c_n1 (cfg j) <> 0 -> c_t1 (cfg j) <> 0 -> e_open (w j) = true ->
  in_flight nw delay w (addr i) (addr j) d -> rx_datagram d = [RxMsg h ies] -> is_response (hd_type h) = false -> hd_type h <> 1 ->
  (forall f h' ies' r, In (ODispatch f h' ies' r) (e_trace (w j)) -> is_response (hd_type h') = false -> hd_seq h' = hd_seq h -> f = addr i) ->
  good_event (cfg j) (ERx (addr i) d vs) -> answers (ERx (addr i) d vs) -> v_resend (vs 0%nat) = true -> step (cfg j) (w j) (ERx (addr i) d vs) = Ok s ->
  exists x d' rh ries, In (OSend x (e_now (w j)) (addr i) d') (e_trace s) /\ rx_datagram d' = [RxMsg rh ries] /\ is_response (hd_type rh) = true /\ hd_seq rh = hd_seq h.
Proof.
  intros X Oa Hn Ht Ho F Rx R T U G An Rs E. pose proof (step_rx _ _ _ _ _ _ _ _ Ho Rx E) as E1.
  pose proof (exec_reach _ _ _ l w X) as Re. pose proof (exec_chained _ _ _ l w X) as Ch. destruct (G 0%nat) as (G1 & _ & _ & G4).
  assert (X' : exec (WNode j (ERx (addr i) d vs) :: l) (upd j s w)) by (econstructor; [exact X|constructor; assumption]).
  assert (Us : upd j s w j = s) by (unfold upd; rewrite Nat.eqb_refl; reflexivity).
  pose proof (exec_reach _ _ _ _ _ X') as Re'. pose proof (exec_chained _ _ _ _ _ X') as Ch'.
  destruct (queue_find (e_resps (w j)) h) as [q|] eqn:Q.
  - destruct (queue_find_some _ _ _ Q) as (P1 & P2 & P3). destruct (entry_kept _ _ q (Re j) P1) as [Kq _]. rewrite P3 in Kq.
    destruct (env_parts _ G1) as (C1 & _).
    destruct (answered_from_cache _ _ _ _ _ _ _ _ (Re j) Hn Ht R Kq E1) as [_ A].
    destruct (A Ho Rs C1) as (id1 & t & to & bs & rest & A1 & A2 & (to1 & rh & ries & cb & K1 & K2 & K3 & _) & _).
    destruct (response_datagram w j id1 to1 rh ries cb t to bs (Re j) Ch K1 K2 A2) as (-> & h' & ies' & B1 & B2 & B3).
    destruct (in_split _ _ K1) as (ta & tb & Et). destruct (Oa _ _ _ _ _ _ _ Et K2) as (h2 & ies2 & r & D1 & D2 & D3).
    assert (D1' : In (ODispatch to1 h2 ies2 r) (e_trace (w j))) by (rewrite Et; apply in_app_iff; right; right; exact D1).
    assert (S' : hd_seq h2 = hd_seq h) by congruence. pose proof (U _ _ _ _ D1' D2 S') as ->.
    exists (Some id1), bs, h', ies'. split; [rewrite A1; left; reflexivity|]. split; [exact B1|]. split; [exact B2|congruence].
  - destruct (An 0%nat h ies) as (rh & ries & k & k' & Hv & Rr & Sr); [rewrite Rx; reflexivity|exact R|exact T|].
    rewrite Hv in G4. destruct G4 as [[G5 _] _].
    destruct (answer_kept _ _ _ _ _ _ _ _ _ _ _ (reach_wf _ _ (Re j)) Hn Ht Ho G1 Hv Rr G5 R Q E1) as (rid & B1 & (l' & B2) & _).
    assert (Hin : In (e_now (w j)) (send_times rid (e_trace s))) by (rewrite B2; apply in_app_iff; right; left; reflexivity).
    apply send_times_in in Hin. destruct Hin as (to & bs & Hin). rewrite <- Us in B1, Hin.
    destruct (response_datagram (upd j s w) j rid (addr i) rh ries false (e_now (w j)) to bs (Re' j) Ch' B1 Rr Hin) as (-> & h' & ies' & D1 & D2 & D3).
    rewrite Us in Hin. exists (Some rid), bs, h', ies'. split; [exact Hin|]. split; [exact D1|]. split; [exact D2|congruence].
Qed.

Theorem round_trip l w i j id h0 ies0 cb t d vs s : exec l w -> only_answers (w j) -> c_n1 (cfg j) <> 0 -> c_t1 (cfg j) <> 0 -> e_open (w j) = true ->
  In (OTx id (addr j) h0 ies0 cb) (e_trace (w i)) -> is_response (hd_type h0) = false -> hd_type h0 <> 1 -> In (OSend (Some id) t (addr j) d) (e_trace (w i)) ->
  match delay with Some D => e_now (w i) <= t + D | None => True end ->
  (forall nr f h' ies' r, In (OSeq (Some id) nr) (e_trace (w i)) -> In (ODispatch f h' ies' r) (e_trace (w j)) -> is_response (hd_type h') = false -> hd_seq h' = nr -> f = addr i) ->
  good_event (cfg j) (ERx (addr i) d vs) -> answers (ERx (addr i) d vs) -> v_resend (vs 0%nat) = true -> step (cfg j) (w j) (ERx (addr i) d vs) = Ok s ->
  exists x d' m, In (OSend x (e_now (w j)) (addr i) d') (e_trace s) /\ is_response (hd_type (fst m)) = true /\
    forall l2 w2 vs' s', wruns nw delay late (upd j s w) l2 w2 -> never is_set_seq i (l2 ++ WNode j (ERx (addr i) d vs) :: l) -> N.of_nat (length (draws (e_trace (w2 i)))) <= 2 ^ 24 - 1 ->
      c_n1 (cfg i) <> 0 -> c_t1 (cfg i) <> 0 -> e_open (w2 i) = true -> count (is_free id) (e_trace (w2 i)) = 0 -> in_flight nw delay w2 (addr j) (addr i) d' ->
      good_event (cfg i) (ERx (addr j) d' vs') -> step (cfg i) (w2 i) (ERx (addr j) d' vs') = Ok s' ->
      (cb = true -> In (OResp id (Some m)) (e_trace s')) /\ (cb = false -> In (ODispatch (addr j) (fst m) (snd m) (Some id)) (e_trace s')) /\ count (is_free id) (e_trace s') = 1.
Proof.
  intros X Oa Hn Ht Ho Htx R0 T0 Hs Dl U G An Rs E. destruct (request_datagram l w i id _ h0 ies0 cb t d X Htx R0 Hs) as (h & ies & Rx & Ty & Hq).
  assert (F : in_flight nw delay w (addr i) (addr j) d) by (exists i, (Some id), t; auto).
  destruct (request_answered l w i j d vs s h ies X Oa Hn Ht Ho F Rx) as (x & d' & rh & ries & A1 & A2 & A3 & A4); try assumption; [rewrite Ty; exact R0|rewrite Ty; exact T0| |].
  { intros f h' ies' r A B C. exact (U (hd_seq h) f h' ies' r Hq A B C). }
  exists x, d', (rh, ries). split; [exact A1|]. split; [exact A3|]. intros l2 w2 vs' s' B Ns Fd Hn' Ht' Ho' Fr0 F' G' E'.
  assert (X' : exec (WNode j (ERx (addr i) d vs) :: l) (upd j s w)) by (econstructor; [exact X|constructor; assumption]).
  destruct (runs_older _ _ _ _ X' B i) as (n2 & E2).
  destruct (step_older nw delay late w _ _ (exec_reach _ _ _ _ _ X) (exec_chained _ _ _ _ _ X) (W_node nw delay late w j (ERx (addr i) d vs) s G F E) i) as (n1 & E1).
  assert (O : forall o, In o (e_trace (w i)) -> In o (e_trace (w2 i))) by (intros o Hi; rewrite E2, E1; apply in_app_iff; right; apply in_app_iff; right; exact Hi).
  exact (answer_delivered nw delay late _ w2 i id _ h0 ies0 cb (addr j) d' vs' s' rh ries (runs_app _ _ _ _ _ X' B) Ns Fd Hn' Ht' Ho' (O _ Htx) R0 (eq_ind_r (fun n => In (OSeq (Some id) n) _) (O _ Hq) A4) Fr0 F' A2 A3 G' E').
Qed.
End Net.
