(* NetProps.v -- the lemmas behind C71 and C72: who answers, and requests dispatched at most once *)
From Verif Require Import Base BaseProofs GtlvModel DecEncModel DecEncSpec IesModel IesSpec IesProofs TablesModel MsgModel MsgSpec MsgProofs MsgEncProofs RxProofs
  EndpointModel EndpointSpec EndpointProofs EndpointRun EndpointLife EndpointFinal EndpointProps EndpointExt EndpointProps2 EndpointProps3 NetModel NetProofs NetFinal.

(* ---------------------------------------------------------------- one endpoint *)
Lemma in_fail id m o : In o (fail_cb id m) -> o = OResp id None.
Proof. unfold fail_cb. destruct (negb (mi_resp m) && mi_cb m); cbn; [intros [<-|[]]; reflexivity|intros []]. Qed.
Lemma in_start id m o : In o (tx_start id m) -> o = OSeq (Some id) (mi_nr m) \/ o = OTx id (mi_to m) (mi_h m) (mi_ies m) (mi_cb m).
Proof. unfold tx_start. rewrite in_app_iff. destruct (mi_resp m); cbn; intuition. Qed.
(* a response given to the callback of a request has its sequence number *)
Definition resp_inv (id : N) (m : minfo) (tr : list out) (p : phase) : Prop :=
  (match p with PWait _ _ => mi_resp m = false | _ => True end)
  /\ forall h ies, In (OResp id (Some (h, ies))) tr -> is_response (hd_type h) = true /\ hd_seq h = mi_nr m /\ mi_resp m = false.
Lemma life_resp c D cl id m tr p : life c D cl id m tr p -> resp_inv id m tr p.
Proof.
  intros (tr0 & p0 & Hb & Hl). assert (H0 : resp_inv id m tr0 p0).
  { destruct Hb; (split; [cbn; auto|]); intros h ies Hin; exfalso; cbn [In] in Hin; rewrite ?in_app_iff in Hin; cbn [In] in Hin;
    repeat match goal with
    | H : _ \/ _ |- _ => destruct H as [H|H]
    | H : In _ (fail_cb id m) |- _ => apply in_fail in H; discriminate
    | H : In _ (tx_start id m) |- _ => apply in_start in H; destruct H; discriminate
    | _ => try discriminate
    end. }
  clear Hb. induction Hl as [|tr1 p1 tr2 p2 Hl IH Hs]; [exact H0|]. destruct IH as [R IH]. split.
  - destruct Hs; cbn in *; auto.
  - intros h0 ies0 Hin. destruct Hs; cbn [In] in Hin; rewrite ?in_app_iff in Hin; cbn [In] in Hin;
    repeat match goal with
    | H : _ \/ _ |- _ => destruct H as [H|H]
    | H : In _ (fail_cb id m) |- _ => apply in_fail in H; discriminate
    | H : In _ (if ?b then _ else _) |- _ => destruct b; cbn in H
    | H : In _ tr1 |- _ => exact (IH _ _ H)
    | H : In _ (_ ++ _) |- _ => apply in_app_iff in H
    | H : OResp _ _ = OResp _ _ |- _ => injection H as <- <-; auto
    | H : In _ ?t |- _ => exact (IH _ _ H)
    | _ => try discriminate; try contradiction
    end.
Qed.
Lemma resp_of_request c s id to h0 ies0 cb h ies : reachable c s -> In (OTx id to h0 ies0 cb) (e_trace s) -> In (OResp id (Some (h, ies))) (e_trace s) ->
  is_response (hd_type h) = true /\ is_response (hd_type h0) = false /\ In (OSeq (Some id) (hd_seq h)) (e_trace s).
Proof.
  intros H Ht Hr. destruct (tx_known c s id to h0 ies0 cb H Ht) as (m & p & K & _ & <- & _ & _).
  destruct (life_resp _ _ _ _ _ _ _ (kn_life _ _ _ _ _ _ _ K)) as [_ L].
  destruct (L h ies) as (A & B & C); [apply (in_tr_of id); [cbn; apply N.eqb_refl|exact Hr]|]. split; [exact A|]. split; [exact C|].
  rewrite B. apply (proj1 (in_tr_of id (OSeq (Some id) (mi_nr m)) (e_trace s) (N.eqb_refl _))). exact (li_seq _ _ _ _ _ _ _ (kn_inv _ _ _ _ _ _ _ K) C).
Qed.
Lemma tx_unique c s id to h ies cb to' h' ies' cb' : reachable c s -> In (OTx id to h ies cb) (e_trace s) -> In (OTx id to' h' ies' cb') (e_trace s) ->
  to = to' /\ h = h' /\ ies = ies' /\ cb = cb'.
Proof.
  intros H A B. destruct (tx_known c s id _ _ _ _ H A) as (m & p & K & <- & <- & <- & <-).
  destruct (known_tx _ _ _ _ _ _ _ _ _ _ _ K B) as (-> & -> & -> & ->). auto.
Qed.

Section Net.
Variables (nw : nat -> node) (delay late : option N).
Notation cfg j := (n_cfg (nw j)).
Notation addr j := (n_addr (nw j)).
Notation exec := (wexec nw delay late).
Hypothesis distinct : forall i k, addr i = addr k -> i = k.

(* few enough sequence numbers were drawn at node [i] *)
Definition few_draws (w : world) (i : nat) : Prop := N.of_nat (length (draws (e_trace (w i)))) <= 2 ^ 24 - 1.
Lemma seq_unique l w i x y a : exec l w -> never is_set_seq i l -> few_draws w i ->
  In (OSeq x a) (e_trace (w i)) -> In (OSeq y a) (e_trace (w i)) -> x = y.
Proof.
  intros X Hs Hd A B. eapply draws_distinct with (new := e_trace (w i)); [exact (history_run _ _ _ l w X i)|exact (history_free _ _ _ Hs)|symmetry; apply app_nil_r|exact Hd|exact A|exact B].
Qed.
(* a request that some node received from node [i] with sequence number [nr] *)
Lemma request_origin l w i to h ies : exec l w -> from_msg nw w (addr i) to h ies -> is_response (hd_type h) = false ->
  (exists id h0 ies0 cb, In (OTx id to h0 ies0 cb) (e_trace (w i)) /\ (h, ies) = filled (cfg i) h0 ies0 (hd_seq h) /\ In (OSeq (Some id) (hd_seq h)) (e_trace (w i)))
  \/ hd_type h = 1 /\ In (OSeq None (hd_seq h)) (e_trace (w i)).
Proof.
  intros X (d & k & x & t & A & B & C & G) R. apply distinct in A. subst k.
  destruct (sent_datagram _ w i x t _ d (exec_reach _ _ _ l w X i) (exec_chained _ _ _ l w X) B) as (h' & ies' & G' & En & K).
  destruct (good_unique _ _ _ _ _ G G' C En) as [-> ->].
  destruct K as [(id & h0 & ies0 & cb & -> & K1 & K2 & K3)|[K|(K & _)]]; [|right; exact K|].
  - left. exists id, h0, ies0, cb. split; [exact K1|]. split; [exact K2|]. assert (E : hd_type h' = hd_type h0) by (injection K2 as -> _; reflexivity).
    rewrite E in R. rewrite R in K3. exact K3.
  - rewrite K in R. discriminate.
Qed.

(* ---------------------------------------------------------------- C72 *)
Theorem answer_origin l w i id to h0 ies0 cb h ies : exec l w -> (forall j, only_answers (w j)) -> never is_set_seq i l -> few_draws w i ->
  In (OTx id to h0 ies0 cb) (e_trace (w i)) -> In (OResp id (Some (h, ies))) (e_trace (w i)) ->
  exists j, addr j = to /\ In (OSeq (Some id) (hd_seq h)) (e_trace (w i)) /\ is_response (hd_type h) = true
    /\ ((exists k rh ries rcb r, In (OTx k (addr i) rh ries rcb) (e_trace (w j)) /\ (h, ies) = filled (cfg j) rh ries (hd_seq h) /\ hd_seq rh = hd_seq h
           /\ let q := filled (cfg i) h0 ies0 (hd_seq h) in In (ODispatch (addr i) (fst q) (snd q) r) (e_trace (w j)))
        \/ (hd_type h = 2 /\ hd_type h0 = 1)).
Proof.
  intros X Oa Hs Hd Htx Hr. destruct (resp_of_request _ _ _ _ _ _ _ _ _ (exec_reach _ _ _ l w X i) Htx Hr) as (R & R0 & Hq).
  pose proof (chain_in _ _ _ _ _ _ (exec_chained _ _ _ l w X i) Hr) as (from & d & j & x & t & A & B & C & G).
  assert (ORIG : forall h1 ies1, from_msg nw w (addr i) (addr j) h1 ies1 -> is_response (hd_type h1) = false -> hd_seq h1 = hd_seq h ->
    to = addr j /\ (h1, ies1) = filled (cfg i) h0 ies0 (hd_seq h)).
  { intros h1 ies1 F R1 S1. destruct (request_origin l w i (addr j) h1 ies1 X F R1) as [(id' & h0' & ies0' & cb' & K1 & K2 & K3)|(K1 & K2)].
    - rewrite S1 in *. pose proof (seq_unique l w i _ _ _ X Hs Hd Hq K3) as E. injection E as <-.
      destruct (tx_unique _ _ _ _ _ _ _ _ _ _ _ (exec_reach _ _ _ l w X i) Htx K1) as (-> & -> & -> & ->). auto.
    - rewrite S1 in *. pose proof (seq_unique l w i _ _ _ X Hs Hd Hq K2) as E. discriminate. }
  destruct (sent_datagram _ w j x t _ d (exec_reach _ _ _ l w X j) (exec_chained _ _ _ l w X) B) as (h' & ies' & G' & En & K).
  destruct (good_unique _ _ _ _ _ G G' C En) as [<- <-]. exists j.
  destruct K as [(k & rh & ries & rcb & -> & K1 & K2 & K3)|[(K & _)|(K & h1 & ies1 & F & T1 & S1)]].
  - assert (E : hd_type h = hd_type rh) by (injection K2 as -> _; reflexivity). pose proof R as R'. rewrite E in R'. rewrite R' in K3.
    destruct (in_split _ _ K1) as (ta & tb & Et). destruct (Oa j _ _ _ _ _ _ _ Et R') as (h1 & ies1 & r & D1 & D2 & D3).
    assert (D1' : In (ODispatch (addr i) h1 ies1 r) (e_trace (w j))) by (rewrite Et; apply in_app_iff; right; right; exact D1).
    pose proof (chain_in _ _ _ _ _ _ (exec_chained _ _ _ l w X j) D1') as F. cbn in F.
    destruct (ORIG h1 ies1 F D2) as [-> E1]; [congruence|]. split; [reflexivity|]. split; [exact Hq|]. split; [exact R|]. left.
    exists k, rh, ries, rcb, r. split; [exact K1|]. split; [exact K2|]. split; [congruence|]. rewrite <- E1. exact D1'.
  - rewrite K in R. discriminate.
  - destruct (ORIG h1 ies1 F) as [-> E1]; [rewrite T1; reflexivity|exact S1|]. split; [reflexivity|]. split; [exact Hq|]. split; [exact R|]. right.
    split; [exact K|]. injection E1 as -> _. exact T1.
Qed.
End Net.

(* ---------------------------------------------------------------- C71 *)
(* a request that is not in the cache is given to the receive callback; the answer given there is sent and kept *)
Lemma answer_kept c s from h ies v s' rh ries k k' : WF s -> c_n1 c <> 0 -> c_t1 c <> 0 -> e_open s = true -> env_has is_close v = false ->
  v_rx v = CTx from rh ries false true k :: k' -> is_response (hd_type rh) = true -> good_msg rh (put_node_id (c_node c) (hd_type rh) ries) ->
  is_response (hd_type h) = false -> queue_find (e_resps s) h = None -> handle_rx c s from h ies v = Ok s' ->
  exists rid, In (OTx rid from rh ries false) (e_trace s') /\ first_send rid (e_trace s') (e_now s) /\ count (is_free rid) (e_trace s') = 0.
Proof.
  intros W Hn Ht Ho Hc Hv Rr G R Q E. destruct (env_parts v Hc) as (C1 & _ & C3). rewrite Hv in C3. unfold calls_have in C3. cbn [existsb] in C3.
  apply orb_false_iff in C3. destruct C3 as [C3 C4]. unfold handle_rx in E. inv_bind E. rename x into s1.
  match goal with Hs : _ = Ok s1 |- _ => destruct (hb_queues s from h v s1 W Hs) as (A1 & A2 & A3 & A4 & A5 & _ & A8) end.
  rewrite R, A2, Q in E. inv_bind E. rename x into s2.
  match goal with Hs : run_calls c (v_ctx v) s1 = Ok s2 |- _ => rename Hs into E1 end.
  pose proof (A8 c DT false) as F0. pose proof (run_calls_fr c DT false _ _ _ (fun _ => C1) (fr_wf _ _ _ _ _ _ F0) E1) as F1.
  set (s3 := log (ODispatch from h ies None) s2) in *.
  assert (F2 : Fr c DT false None s2 s3) by (apply fr_log_none; [exact (fr_wf _ _ _ _ _ _ F1)|reflexivity]).
  assert (O3 : e_open s3 = true).
  { change (e_open s3) with (e_open s2). destruct (run_calls_ext c false true _ _ _ (conj (fun _ => C1) (fun X => match Bool.diff_true_false X with end)) E1) as [_ X]. rewrite (X eq_refl), A3. exact Ho. }
  assert (N3 : e_now s3 = e_now s).
  { transitivity (e_now s2); [reflexivity|]. rewrite (fr_now _ _ _ _ _ _ F1). exact A4. }
  rewrite Hv in E. cbn [run_calls] in E. inv_bind E. rename x into s4.
  match goal with Hs : run_call c _ s3 = Ok s4 |- _ => rename Hs into E4 end.
  assert (F4 : Fr c DT false None s3 s4) by (eapply run_call_fr; [intros _; exact C3|exact (fr_wf _ _ _ _ _ _ F2)|exact E4]).
  pose proof (run_calls_fr c DT false _ _ _ (fun _ => C4) (fr_wf _ _ _ _ _ _ F4) E) as F5.
  destruct (good_enc _ _ G) as (d & En & _).
  rewrite run_call_tx in E4. unfold ep_tx in E4. cbv zeta in E4. rewrite Rr in E4.
  replace (mkHdr (hd_version rh) (hd_type rh) (hd_prio rh) (hd_seid rh) (hd_seq rh)) with rh in E4 by (destruct rh; reflexivity).
  rewrite En in E4. unfold send_data in E4. cbn [e_open log set_next] in E4. fold s3 in E4. rewrite O3 in E4. cbn [andb] in E4.
  unfold queue_add in E4. apply N.eqb_neq in Hn, Ht. rewrite Hn, Ht, Rr in E4. cbn [orb bind] in E4. injection E4 as E4.
  assert (NX : e_next s3 < e_next s4) by (rewrite <- E4; cbn; lia).
  exists (e_next s3). destruct (fr_keep _ _ _ _ _ F5 NX) as [T5 _]; [discriminate|].
  assert (T4 : tr_of (e_next s3) (e_trace s4) = [ORet (e_next s3) true; OSend (Some (e_next s3)) (e_now s3) from d; OTx (e_next s3) from rh ries false]).
  { rewrite <- E4. cbn [e_trace log set_next set_resps]. rewrite !tr_of_cons. cbn [about]. rewrite !N.eqb_refl. rewrite (wf_new s3 (fr_wf _ _ _ _ _ _ F2)) by lia. reflexivity. }
  rewrite T4 in T5. split; [|split].
  - apply (in_tr_of (e_next s3)); [cbn; apply N.eqb_refl|]. rewrite T5. cbn. tauto.
  - exists []. rewrite <- send_times_tr_of, T5. cbn [send_times]. rewrite N.eqb_refl, N3. reflexivity.
  - rewrite <- (count_tr_of _ (e_next s3)), T5; [reflexivity|]. intros o. destruct o; cbn; congruence.
Qed.

Lemma step_newq c s ev s' : match ev with ETick _ => False | _ => True end -> step c s ev = Ok s' -> newq s s'.
Proof.
  intros H E. destruct ev as [a|from d vs|dt|id sd k]; cbn [step] in E; [| |destruct H|].
  - eapply run_call_newq; exact E.
  - dif_in E Eo; [|injection E as <-; apply newq_refl]. eapply handle_all_newq; exact E.
  - destruct (find_id id (e_reqs s)) as [q|]; [|destruct (find_id id (e_resps s)) as [q|]]; [| |injection E as <-; apply newq_refl].
    + dif_in E Ed; [|injection E as <-; apply newq_refl]. eapply req_timer_newq; exact E.
    + dif_in E Ed; [|injection E as <-; apply newq_refl]. apply del_resp_newq in E. exact E.
Qed.
(* handled at most [L] late *)
Definition D_late (L a b : N) : Prop := a <= b /\ b <= a + L.
Lemma spaced_window L d l : forall t0 l2, spaced (D_late L) d l -> l = l2 ++ [t0] -> forall t, In t l -> t0 <= t /\ t <= t0 + (lenN l - 1) * (d + L).
Proof.
  induction l as [|x [|y l] IH]; intros t0 l2 Hs E t Hin; [destruct Hin|..].
  - destruct l2 as [|z [|]]; try discriminate. injection E as ->. destruct Hin as [->|[]]. split; [lia|]. apply N.le_add_r.
  - destruct Hs as [[Hx1 Hx2] Hs]. destruct l2 as [|z l2]; [discriminate|]. injection E as <- E.
    pose proof (IH t0 l2 Hs E) as Hy. rewrite !lenN_cons in *.
    replace (1 + (1 + lenN l) - 1) with (1 + (1 + lenN l - 1)) by lia. rewrite N.mul_add_distr_r, N.mul_1_l.
    destruct Hin as [<-|Hin].
    + specialize (Hy y (or_introl eq_refl)). lia.
    + specialize (Hy t Hin). lia.
Qed.
Lemma in_send_times id t to bs tr : In (OSend (Some id) t to bs) tr -> In t (send_times id tr).
Proof.
  induction tr as [|o tr IH]; [intros []|]. intros [->|H]; [cbn; rewrite N.eqb_refl; left; reflexivity|]. specialize (IH H).
  destruct o as [| |[i|] t' to' bs'| | | | | |]; cbn; try exact IH. destruct (i =? id); [right|]; exact IH.
Qed.
Lemma send_times_app id a b : send_times id (a ++ b) = send_times id a ++ send_times id b.
Proof.
  induction a as [|o a IH]; [reflexivity|]. destruct o as [| |[i|] t to bs| | | | | |]; cbn; try exact IH. destruct (i =? id); cbn; rewrite IH; reflexivity.
Qed.
Lemma first_send_app id a b t : first_send id b t -> first_send id (a ++ b) t.
Proof. intros (l & E). exists (send_times id a ++ l). rewrite send_times_app, E. apply app_assoc. Qed.
Lemma dispatched_app a b : dispatched (a ++ b) = dispatched a ++ dispatched b.
Proof.
  induction a as [|o a IH]; [reflexivity|]. destruct o; cbn [dispatched app]; try exact IH. destruct (_ || _); cbn [app]; rewrite IH; reflexivity.
Qed.
Lemma dispatched_none tr : (forall f h i r, In (ODispatch f h i r) tr -> is_response (hd_type h) = true \/ hd_type h = 1) -> dispatched tr = [].
Proof.
  induction tr as [|o tr IH]; intros H; [reflexivity|]. destruct o; cbn [dispatched]; try (apply IH; intros; eapply H; right; eassumption).
  replace (is_response (hd_type h) || (hd_type h =? 1)) with true; [apply IH; intros; eapply H; right; eassumption|].
  symmetry. apply orb_true_iff. destruct (H from h ies req) as [X|X]; [left; reflexivity|left; exact X|right; apply N.eqb_eq; exact X].
Qed.
Lemma count_dispatch_none a : count is_dispatch a = 0 -> dispatched a = [].
Proof.
  intros H. apply dispatched_none. intros f h i r Hin. exfalso. unfold count in H. assert (X : In (ODispatch f h i r) (filter is_dispatch a)) by (apply filter_In; split; [exact Hin|reflexivity]).
  destruct (filter is_dispatch a); [destruct X|]. rewrite lenN_cons in H. lia.
Qed.

Section Once.
Variables (nw : nat -> node) (D L : N).
Notation cfg j := (n_cfg (nw j)).
Notation addr j := (n_addr (nw j)).
Notation exec := (wexec nw (Some D) (Some L)).
Hypothesis distinct : forall i k, addr i = addr k -> i = k.

Lemma exec_late l w : exec l w -> forall i, Adv (cfg i) (D_late L) true (ep_create (n_time (nw i))) (w i) /\ forall q, In q (e_reqs (w i) ++ e_resps (w i)) -> e_now (w i) <= q_dl q + L.
Proof.
  induction 1 as [|l w e w' X IH S]; intros i; [split; [apply adv_refl, wf_create|intros q []]|]. destruct (IH i) as [A O].
  assert (TO : timers_ok (D_late L) (w i)) by (intros q Hq Hd; specialize (O q Hq); split; lia).
  destruct S as [j ev s G Al E|dt Al].
  - unfold upd. destruct (Nat.eqb i j) eqn:Ei; [|split; assumption]. apply Nat.eqb_eq in Ei. subst i. split.
    + eapply adv_trans; [exact A|]. eapply step_adv; [exact (adv_wf _ _ _ _ _ A)|discriminate|exact TO|exact E].
    + assert (NT : match ev with ETick _ => False | _ => True end) by (destruct ev; tauto).
      destruct (step_newq _ _ _ _ NT E) as [N1 N2]. intros q Hq. rewrite N1. destruct (N2 q Hq) as [H|H]; [exact (O q H)|lia].
  - split.
    + eapply adv_trans; [exact A|]. eapply step_adv with (ev := ETick dt); [exact (adv_wf _ _ _ _ _ A)|discriminate|exact TO|reflexivity].
    + intros q Hq. exact (Al L eq_refl i q Hq).
Qed.
Lemma clocks l w : exec l w -> forall i k, e_now (w i) = e_now (w k).
Proof.
  induction 1 as [|l w e w' X IH S]; intros i k; [reflexivity|]. destruct S as [j ev s G Al E|dt Al].
  - assert (NT : match ev with ETick _ => False | _ => True end) by (destruct ev; tauto).
    destruct (step_newq _ _ _ _ NT E) as [N1 _]. unfold upd. destruct (Nat.eqb i j), (Nat.eqb k j); rewrite ?N1; apply IH.
  - cbn. rewrite (IH i k). reflexivity.
Qed.
(* all transmissions of a request *)
Lemma window l w i id to h ies cb t0 t to' d : exec l w -> In (OTx id to h ies cb) (e_trace (w i)) -> is_response (hd_type h) = false ->
  first_send id (e_trace (w i)) t0 -> In (OSend (Some id) t to' d) (e_trace (w i)) -> t0 <= t /\ t <= t0 + c_n1 (cfg i) * (c_t1 (cfg i) + L).
Proof.
  intros X Ht R (l2 & E) Hs. destruct (exec_late l w X i) as [A _].
  assert (Hid : id < e_next (w i)) by (eapply wf_about; [exact (adv_wf _ _ _ _ _ A)|exact Ht|cbn; apply N.eqb_refl]).
  destruct (lives_known _ _ _ _ _ (adv_born _ _ _ _ _ A id (N.le_0_l _) Hid)) as (m & p & K).
  destruct (known_tx _ _ _ _ _ _ _ _ _ _ _ K Ht) as (_ & <- & _ & _).
  pose proof (req_sends _ _ _ _ _ _ _ K R) as Hc. rewrite <- send_times_len in Hc.
  destruct (spaced_window L (c_t1 (cfg i)) _ t0 l2 (req_spaced _ _ _ _ _ _ _ K R) E t (in_send_times _ _ _ _ _ Hs)) as [B1 B2]. split; [exact B1|].
  eapply N.le_trans; [exact B2|]. apply N.add_le_mono_l. apply N.mul_le_mono_r. lia.
Qed.

Variable j : nat.
Hypothesis n1_j : c_n1 (cfg j) <> 0.
Hypothesis t1_j : c_t1 (cfg j) <> 0.
Hypothesis slow : forall i, c_n1 (cfg i) * (c_t1 (cfg i) + L) + D < c_keep (cfg j).

(* request [nr] of [from]: the response is kept, or it is too late for any copy of the request *)
Definition cov (w : world) (from : sa) (nr : N) : Prop :=
  exists rid to rh ries rcb t1 i id t to' d, In (OTx rid to rh ries rcb) (e_trace (w j)) /\ is_response (hd_type rh) = true /\ hd_seq rh = nr
      /\ first_send rid (e_trace (w j)) t1 /\ (count (is_free rid) (e_trace (w j)) = 0 \/ t1 + c_keep (cfg j) <= e_now (w j))
      /\ addr i = from /\ In (OSeq (Some id) nr) (e_trace (w i)) /\ In (OSend (Some id) t to' d) (e_trace (w i)) /\ t <= t1.
Definition covered (w : world) : Prop := forall from nr, In (from, nr) (dispatched (e_trace (w j))) -> cov w from nr.

Lemma last_exists {A} (x : A) l : In x l -> exists l2 y, l = l2 ++ [y].
Proof. destruct l as [|a l] using rev_ind; [intros []|]. eauto. Qed.

(* one more step keeps what is covered covered *)
Lemma covered_step w e w' from nr : (forall i, reachable (cfg i) (w i)) -> chained nw w -> wstep nw (Some D) (Some L) w e w' -> never is_close j [e] ->
  cov w from nr -> cov w' from nr.
Proof.
  intros Re Ch S Nc (rid & to & rh & ries & rcb & t1 & i & id & t & to' & d & H1 & H2 & H3 & H4 & H5 & H6 & H7 & H8 & H9).
  pose proof (step_older _ _ _ _ _ _ Re Ch S) as O.
  exists rid, to, rh, ries, rcb, t1, i, id, t, to', d. destruct (O j) as (nj & Ej). destruct (O i) as (ni & Ei).
  split; [rewrite Ej; apply in_app_iff; auto|]. split; [exact H2|]. split; [exact H3|].
  split; [rewrite Ej; apply first_send_app; exact H4|].
  split; [|split; [exact H6|split; [rewrite Ei; apply in_app_iff; auto|split; [rewrite Ei; apply in_app_iff; auto|exact H9]]]].
  clear Ei. destruct S as [k ev s G A E|dt A].
  - unfold upd in *. destruct (Nat.eqb j k) eqn:Ek; [|exact H5]. apply Nat.eqb_eq in Ek. subst k.
    assert (NT : match ev with ETick _ => False | _ => True end) by (destruct ev; tauto). destruct (step_newq _ _ _ _ NT E) as [N1 _]. rewrite N1.
    destruct H5 as [H5|H5]; [|right; exact H5]. destruct (N.lt_ge_cases (e_now (w j)) (t1 + c_keep (cfg j))) as [Hl|Hl]; [left|right; exact Hl].
    eapply response_kept with (s := w j) (evs := [ev]) (to := to) (h := rh) (ies := ries) (cb := rcb) (t0 := t1); try eassumption; [apply Re|cbn [run bind]; rewrite E; reflexivity| |rewrite N1; exact Hl].
    constructor; [|constructor]. apply (Nc (WNode j ev)); [left; reflexivity|]. cbn. rewrite Nat.eqb_refl. left. reflexivity.
  - cbn [set_now e_trace e_now]. destruct H5 as [H5|H5]; [left; exact H5|right; lia].
Qed.

(* events that dispatch no request *)
Lemma no_new_dispatch c s ev s' : good_event c ev ->
  match ev with ERx _ d _ => forall h ies, In (RxMsg h ies) (rx_datagram d) -> is_response (hd_type h) = true \/ hd_type h = 1 | ETick _ => False | _ => True end ->
  step c s ev = Ok s' -> dispatched (e_trace s') = dispatched (e_trace s).
Proof.
  intros G A E.
  assert (X : grow (e_now s) (fun o _ => match o with ODispatch _ h _ _ => is_response (hd_type h) = true \/ hd_type h = 1 | _ => True end) s s').
  { eapply step_grow with (R := fun _ h _ => is_response (hd_type h) = true \/ hd_type h = 1); [| | | | | |exact G| |exact E]; cbn; auto.
    intros o b Ho. destruct o as [| | [k|] | |? [[]|] | | | |]; cbn in *; tauto. }
  destruct X as (_ & new & -> & C). specialize (C eq_refl). rewrite dispatched_app. replace (dispatched new) with (@nil (sa * N)); [reflexivity|]. symmetry.
  induction new as [|o new IH]; [reflexivity|]. destruct C as [C1 C2]. destruct o; cbn [dispatched]; try exact (IH C2).
  replace (is_response (hd_type h) || (hd_type h =? 1)) with true; [exact (IH C2)|]. symmetry. apply orb_true_iff. destruct C1 as [C1|C1]; [left; exact C1|right; apply N.eqb_eq; exact C1].
Qed.
Lemma older_draws w e w' i : (forall i, reachable (cfg i) (w i)) -> chained nw w -> wstep nw (Some D) (Some L) w e w' -> few_draws w' i -> few_draws w i.
Proof.
  intros Re Ch S H. destruct (step_older _ _ _ _ _ _ Re Ch S i) as (new & E). unfold few_draws in *. rewrite E, draws_app, app_length in H. lia.
Qed.

(* the request behind a datagram *)
Lemma request_in_flight l w from d h ies : exec l w -> in_flight nw (Some D) w from (addr j) d -> rx_datagram d = [RxMsg h ies] ->
  is_response (hd_type h) = false -> hd_type h <> 1 ->
  exists i id h0 ies0 cb t, addr i = from /\ In (OTx id (addr j) h0 ies0 cb) (e_trace (w i)) /\ is_response (hd_type h0) = false
    /\ In (OSeq (Some id) (hd_seq h)) (e_trace (w i)) /\ In (OSend (Some id) t (addr j) d) (e_trace (w i)) /\ t <= e_now (w j) /\ e_now (w j) <= t + D.
Proof.
  intros X (i & x & t & A & B & C) Hd R T.
  destruct (sent_datagram _ w i x t _ d (exec_reach _ _ _ l w X i) (exec_chained _ _ _ l w X) B) as (h' & ies' & G & En & K).
  destruct (good_enc _ _ G) as (d' & E1 & E2). assert (d' = d) by congruence. subst d'. rewrite Hd in E2. injection E2 as <- <-.
  destruct K as [(id & h0 & ies0 & cb & -> & K1 & K2 & K3)|[(K & _)|(K & _)]]; [|contradiction|rewrite K in R; discriminate].
  assert (E : hd_type h = hd_type h0) by (injection K2 as -> _; reflexivity). pose proof R as R'. rewrite E in R'. rewrite R' in K3.
  exists i, id, h0, ies0, cb, t. rewrite (clocks l w X j i). repeat split; try assumption.
  exact (chain_in _ _ _ _ _ _ (exec_chained _ _ _ l w X i) B).
Qed.
Lemma fresh l w from d h ies : exec l w -> (forall i, never is_set_seq i l) -> (forall i, few_draws w i) -> covered w ->
  in_flight nw (Some D) w from (addr j) d -> rx_datagram d = [RxMsg h ies] -> is_response (hd_type h) = false -> hd_type h <> 1 ->
  queue_find (e_resps (w j)) h = None -> ~ In (from, hd_seq h) (dispatched (e_trace (w j))).
Proof.
  intros X Hs Hd Cv F Rx R T Q Hin.
  destruct (Cv _ _ Hin) as (rid & to & rh & ries & rcb & t1 & i & id & t & to' & d0 & H1 & H2 & H3 & H4 & H5 & H6 & H7 & H8 & H9).
  destruct (request_in_flight l w from d h ies X F Rx R T) as (i' & id' & h0 & ies0 & cb & t' & A1 & A2 & A3 & A4 & A5 & A6 & A7).
  rewrite <- H6 in A1. apply distinct in A1. subst i'.
  pose proof (seq_unique nw _ _ l w i _ _ _ X (Hs i) (Hd i) H7 A4) as E. injection E as <-.
  destruct (last_exists _ _ (in_send_times _ _ _ _ _ H8)) as (l2 & t0 & Ef).
  assert (Hf : first_send id (e_trace (w i)) t0) by (exists l2; exact Ef).
  destruct (window l w i _ _ _ _ _ _ _ _ _ X A2 A3 Hf H8) as [W1 _]. destruct (window l w i _ _ _ _ _ _ _ _ _ X A2 A3 Hf A5) as [_ W2].
  pose proof (slow i) as Sl. destruct H5 as [H5|H5]; [|lia].
  destruct (kept_entry _ _ rid (hd_seq h) (exec_reach _ _ _ l w X j) n1_j t1_j) as (q & Q1 & Q2 & Q3 & Q4).
  { exists to, rh, ries, rcb. auto. }
  apply (queue_find_none _ _ _ Q Q1); [rewrite R; exact Q4|exact Q3].
Qed.

Lemma once_step l w e w' : exec l w -> (forall i, never is_set_seq i l) -> (forall i, few_draws w i) -> wstep nw (Some D) (Some L) w e w' ->
  never is_close j [e] -> (forall ev, In ev (node_event j e) -> answers ev) -> NoDup (dispatched (e_trace (w j))) /\ covered w ->
  NoDup (dispatched (e_trace (w' j))) /\ covered w'.
Proof.
  intros X Hs Hd S Nc An [Nd Cv]. pose proof (exec_reach _ _ _ l w X) as Re. pose proof (exec_chained _ _ _ l w X) as Ch.
  assert (KEEP : forall from nr, cov w from nr -> cov w' from nr) by (intros from nr; exact (covered_step w e w' from nr Re Ch S Nc)).
  assert (SAME : dispatched (e_trace (w' j)) = dispatched (e_trace (w j)) -> NoDup (dispatched (e_trace (w' j))) /\ covered w').
  { intros E. rewrite E. split; [exact Nd|]. intros from nr Hin. rewrite E in Hin. apply KEEP, Cv, Hin. }
  pose proof (step_older _ _ _ _ _ _ Re Ch S) as O. pose proof S as S0.
  destruct S as [k ev s G A E|dt A]; [|apply SAME; reflexivity].
  destruct (Nat.eqb j k) eqn:Ek; [|apply SAME; unfold upd; rewrite Ek; reflexivity]. pose proof Ek as Ek'. apply Nat.eqb_eq in Ek'. subst k.
  assert (U : upd j s w j = s) by (unfold upd; rewrite Ek; reflexivity). rewrite U in *.
  destruct ev as [a|from d vs|dt|id sd k]; [apply SAME; eapply no_new_dispatch; [exact G|exact I|exact E]| |destruct A|apply SAME; eapply no_new_dispatch; [exact G|exact I|exact E]].
  destruct (in_flight_msg _ _ w from j d Re Ch A) as (h & ies & Rx & _).
  destruct (is_response (hd_type h)) eqn:R; [|destruct (N.eq_dec (hd_type h) 1) as [T|T]].
  1, 2: apply SAME; eapply no_new_dispatch; [exact G| |exact E]; cbn; rewrite Rx; intros h' ies' [Hin|[]]; injection Hin as <- <-; auto.
  pose proof E as E'. cbn [step] in E'. dif_in E' Eo; [|injection E' as <-; apply SAME; reflexivity].
  rewrite Rx in E'. cbn [handle_all] in E'. inv_bind E'. injection E' as ->.
  match goal with Hh : handle_rx _ _ _ _ _ _ = Ok s |- _ => rename Hh into E1 end. pose proof (O j) as Oj. rewrite U in Oj. destruct Oj as (new & En).
  destruct (queue_find (e_resps (w j)) h) as [q|] eqn:Q.
  - destruct (queue_find_some _ _ _ Q) as (P1 & P2 & P3). destruct (entry_kept _ _ q (Re j) P1) as [Kq _]. rewrite P3 in Kq.
    destruct (answered_from_cache _ _ _ _ _ _ _ _ (Re j) n1_j t1_j R Kq E1) as [Hc _]. apply SAME. rewrite En in Hc |- *.
    rewrite count_app in Hc. rewrite dispatched_app, count_dispatch_none by lia. reflexivity.
  - assert (Hk : forall id, ~ kept_response (w j) id (hd_seq h)).
    { intros id Hk. destruct (kept_entry _ _ id (hd_seq h) (Re j) n1_j t1_j Hk) as (q & Q1 & Q2 & Q3 & Q4). apply (queue_find_none _ _ _ Q Q1); [rewrite R; exact Q4|exact Q3]. }
    destruct (G 0%nat) as (G1 & _ & _ & G4).
    destruct (new_request_dispatched _ _ _ _ _ _ _ (Re j) n1_j t1_j G1 R Hk E1) as (a & b & Et & Hc). rewrite count_app in Hc.
    assert (Ed : dispatched (e_trace s) = (from, hd_seq h) :: dispatched (e_trace (w j))).
    { rewrite Et, dispatched_app. rewrite (count_dispatch_none a) by lia. cbn [app dispatched]. rewrite R. apply N.eqb_neq in T. rewrite T. cbn [orb].
      rewrite dispatched_app, (count_dispatch_none b) by lia. reflexivity. }
    pose proof (fresh l w from d h ies X Hs Hd Cv A Rx R T Q) as Fr. rewrite Ed. split; [constructor; assumption|].
    intros f nr Hin. rewrite U, Ed in Hin. destruct Hin as [Hin|Hin]; [|apply KEEP, Cv, Hin]. injection Hin as <- <-.
    assert (An1 : answers (ERx from d vs)) by (apply An; cbn; rewrite Nat.eqb_refl; left; reflexivity).
    destruct (An1 0%nat h ies) as (rh & ries & k & k' & Hv & Rr & Sr); [rewrite Rx; reflexivity|exact R|exact T|].
    rewrite Hv in G4. destruct G4 as [[G5 _] _].
    destruct (answer_kept _ _ _ _ _ _ _ _ _ _ _ (reach_wf _ _ (Re j)) n1_j t1_j Eo G1 Hv Rr G5 R Q E1) as (rid & B1 & B2 & B3).
    destruct (request_in_flight l w from d h ies X A Rx R T) as (i & id & h0 & ies0 & cb & t & A1 & A2 & A3 & A4 & A5 & A6 & A7).
    exists rid, from, rh, ries, false, (e_now (w j)), i, id, t, (addr j), d. rewrite U. destruct (O i) as (ni & Ei).
    split; [exact B1|]. split; [exact Rr|]. split; [exact Sr|]. split; [exact B2|]. split; [left; exact B3|]. split; [exact A1|].
    split; [rewrite Ei; apply in_app_iff; auto|]. split; [rewrite Ei; apply in_app_iff; auto|exact A6].
Qed.

Theorem at_most_once l1 w1 l2 w : exec l1 w1 -> dispatched (e_trace (w1 j)) = [] -> wruns nw (Some D) (Some L) w1 l2 w -> never is_close j l2 ->
  (forall e ev, In e l2 -> In ev (node_event j e) -> answers ev) -> (forall i, never is_set_seq i (l2 ++ l1)) -> (forall i, few_draws w i) ->
  NoDup (dispatched (e_trace (w j))).
Proof.
  intros X E0 Y Nc An Hs Hd.
  assert (H : exec (l2 ++ l1) w /\ NoDup (dispatched (e_trace (w j))) /\ covered w); [|exact (proj1 (proj2 H))].
  induction Y as [|l w e w' Y IH S]; [split; [exact X|]; split; [rewrite E0; constructor|intros f nr Hin; rewrite E0 in Hin; destruct Hin]|].
  assert (X1 : exec (l ++ l1) w).
  { clear -X Y. induction Y; [exact X|]. econstructor; eassumption. }
  pose proof (exec_reach _ _ _ _ w X1) as Re. pose proof (exec_chained _ _ _ _ w X1) as Ch.
  assert (Hd0 : forall i, few_draws w i) by (intros i; exact (older_draws w e w' i Re Ch S (Hd i))).
  assert (Hs0 : forall i, never is_set_seq i (l ++ l1)) by (intros i e' ev H1; exact (Hs i e' ev (or_intror H1))).
  destruct IH as (_ & IH).
  - intros e' ev H1. exact (Nc e' ev (or_intror H1)).
  - intros e' ev H1. exact (An e' ev (or_intror H1)).
  - exact Hs0.
  - exact Hd0.
  - split; [exact (WX_step _ _ _ _ _ _ _ _ X1 S)|]. eapply once_step; [exact X1|exact Hs0|exact Hd0|exact S| |intros ev H1; exact (An e ev (or_introl eq_refl) H1)|exact IH].
    intros e' ev [<-|[]]. exact (Nc e ev (or_introl eq_refl)).
Qed.
End Once.
