(* EndpointFinal.v -- histories of any length; the lemmas behind C30 .. C34 and C41 *)
From Verif Require Import Base BaseProofs GtlvModel DecEncModel IesModel IesProofs TablesModel MsgModel EndpointModel EndpointSpec EndpointProofs EndpointRun EndpointLife.

Lemma run_app c evs1 : forall s evs2, run c s (evs1 ++ evs2) = bind (run c s evs1) (fun s' => run c s' evs2).
Proof. induction evs1 as [|ev evs1 IH]; intros s evs2; cbn; [reflexivity|]. destruct (step c s ev); cbn; auto. Qed.

(* ---------------------------------------------------------------- all histories *)

Lemma run_adv c cl evs : forall s s' T, WF s -> (cl = false -> Forall (event_free is_close) evs) -> run c s evs = Ok s' -> e_now s' <= T ->
  Adv c (D_le T) cl s s'.
Proof.
  induction evs as [|ev evs IH]; intros s s' T H Hc E HT; cbn in E; [injection E as <-; apply adv_refl; assumption|].
  inv_bind E. rename x into s1. match goal with Hs : step c s ev = Ok s1 |- _ => rename Hs into E1 end.
  assert (Hc1 : cl = false -> event_free is_close ev) by (intros C; specialize (Hc C); inversion Hc; assumption).
  assert (Hc2 : cl = false -> Forall (event_free is_close) evs) by (intros C; specialize (Hc C); inversion Hc; assumption).
  assert (A0 : Adv c (fun _ _ => True) cl s s1) by (eapply step_adv; [exact H|exact Hc1|intros ? ? ?; exact I|exact E1]).
  pose proof (IH s1 s' T (adv_wf _ _ _ _ _ A0) Hc2 E HT) as A2.
  eapply adv_trans; [|exact A2]. eapply step_adv; [exact H|exact Hc1| |exact E1].
  intros q Hq Hd. split; [assumption|]. pose proof (adv_now _ _ _ _ _ A0). pose proof (adv_now _ _ _ _ _ A2). lia.
Qed.

(* new queue entries are not due *)
Definition newq (s s' : ep) : Prop :=
  e_now s' = e_now s /\ forall q, In q (e_reqs s' ++ e_resps s') -> In q (e_reqs s ++ e_resps s) \/ e_now s <= q_dl q.
Lemma newq_refl s : newq s s.
Proof. split; [reflexivity|tauto]. Qed.
Lemma newq_trans s1 s2 s3 : newq s1 s2 -> newq s2 s3 -> newq s1 s3.
Proof. intros [A B] [C D]. split; [congruence|]. intros q Hq. destruct (D q Hq) as [H|H]; [exact (B q H)|right; congruence]. Qed.
Lemma newq_same s s' : e_now s' = e_now s -> e_reqs s' = e_reqs s -> e_resps s' = e_resps s -> newq s s'.
Proof. intros A B C. split; [assumption|]. rewrite B, C. tauto. Qed.
Lemma send_newq s id to bs snd : newq s (fst (send_data s id to bs snd)).
Proof. unfold send_data. destruct (e_open s && snd); apply newq_same; reflexivity. Qed.
Lemma tx_data_newq s to h ies snd s' : tx_data s to h ies snd = Ok s' -> newq s s'.
Proof.
  unfold tx_data. destruct (encode_msg h ies); intros E; try discriminate; injection E as <-.
  - apply send_newq.
  - apply newq_same; reflexivity.
Qed.
Lemma fail_newq (b : bool) cb s s' : (forall s s', cb s = Ok s' -> newq s s') -> forall o, (if b then cb (log o s) else Ok s) = Ok s' -> newq s s'.
Proof. intros H o. destruct b; [|intros [= <-]; apply newq_refl]. intros E. apply H in E. exact E. Qed.
Lemma queue_add_newq c cb s id to h bs has_cb s' : (forall s s', cb s = Ok s' -> newq s s') -> queue_add c cb s id to h bs has_cb = Ok s' -> newq s s'.
Proof.
  intros H. unfold queue_add. dif Ez; [apply fail_newq; exact H|]. intros [= <-].
  destruct (is_response (hd_type h)); (split; [reflexivity|]); cbn; intros q Hq; rewrite ?in_app_iff in *; cbn in *; rewrite ?in_app_iff in *; cbn in *.
  - destruct Hq as [Hq|[Hq|[<-|[]]]]; [tauto|tauto|]. right. cbn. lia.
  - destruct Hq as [<-|Hq]; [|tauto]. right. cbn. lia.
Qed.
Lemma ep_tx_newq c cb s to h ies has_cb snd s' : (forall s s', cb s = Ok s' -> newq s s') -> ep_tx c cb s to h ies has_cb snd = Ok s' -> newq s s'.
Proof.
  intros H. unfold ep_tx. cbv zeta.
  match goal with |- context [encode_msg ?h1 ?i1] => destruct (encode_msg h1 i1) as [bs|e|u] eqn:En end; [| |discriminate].
  - match goal with |- context [send_data ?s1 ?a ?b ?d ?e] => pose proof (send_newq s1 a b d e) as Hs; destruct (send_data s1 a b d e) as [s2 [|]];
      set (s0 := s1) in *; assert (H0 : newq s s0) by (unfold s0; destruct (is_response (hd_type h)); apply newq_same; reflexivity) end; cbn [fst] in Hs; intros E; inv_bind E; injection E as <-;
      (eapply newq_trans; [exact H0|]; eapply newq_trans; [exact Hs|]).
    + eapply newq_trans; [eapply queue_add_newq; [exact H|eassumption]|]. apply newq_same; reflexivity.
    + eapply newq_trans; [eapply fail_newq; [exact H|eassumption]|]. apply newq_same; reflexivity.
  - intros E. inv_bind E. injection E as <-.
    eapply newq_trans; [|eapply newq_trans; [eapply fail_newq; [exact H|eassumption]|apply newq_same; reflexivity]].
    destruct (is_response (hd_type h)); apply newq_same; reflexivity.
Qed.
Lemma run_calls_newq_list c k : Forall (fun a => forall s s', run_call c a s = Ok s' -> newq s s') k -> forall s s', run_calls c k s = Ok s' -> newq s s'.
Proof.
  induction k as [|a k IH]; intros Hk s s' E; cbn in E; [injection E as <-; apply newq_refl|].
  inversion Hk as [|? ? Ha Hk']; subst. inv_bind E. eapply newq_trans; [apply Ha; eassumption|apply (IH Hk'); exact E].
Qed.
Lemma run_call_newq c a : forall s s', run_call c a s = Ok s' -> newq s s'.
Proof.
  induction a as [to h ies has_cb snd k IH|to h ies snd|to snd|n| |ok] using call_ind'; intros s s' E.
  - rewrite run_call_tx in E. eapply ep_tx_newq; [|exact E]. apply run_calls_newq_list. exact IH.
  - exact (tx_data_newq _ _ _ _ _ _ E).
  - apply tx_data_newq in E. exact E.
  - injection E as <-. apply newq_same; reflexivity.
  - injection E as <-. split; [reflexivity|]. cbn. tauto.
  - injection E as <-. split; [reflexivity|]. cbn. tauto.
Qed.
Lemma run_calls_newq c k s s' : run_calls c k s = Ok s' -> newq s s'.
Proof. apply run_calls_newq_list. apply Forall_forall. intros a _. apply run_call_newq. Qed.
Lemma del_req_newq id s s' : queue_del_req id s = Ok s' -> newq s s'.
Proof.
  unfold queue_del_req. dif Eh; [|discriminate]. intros [= <-]. split; [reflexivity|]. cbn. intros q Hq. left. rewrite in_app_iff in *.
  destruct Hq as [Hq|Hq]; [left; exact (del_in _ _ _ Hq)|tauto].
Qed.
Lemma del_resp_newq id s s' : queue_del_resp id s = Ok s' -> newq s s'.
Proof.
  unfold queue_del_resp. dif Eh; [|discriminate]. intros [= <-]. split; [reflexivity|]. cbn. intros q Hq. left. rewrite in_app_iff in *.
  destruct Hq as [Hq|Hq]; [tauto|right; exact (del_in _ _ _ Hq)].
Qed.
Lemma handle_rx_newq c s from h ies v s' : handle_rx c s from h ies v = Ok s' -> newq s s'.
Proof.
  intros E. unfold handle_rx in E. inv_bind E. rename x into s1.
  eapply newq_trans with (s2 := s1); [match goal with Hs : _ = Ok s1 |- _ => dif_in Hs Eh; [exact (tx_data_newq _ _ _ _ _ _ Hs)|injection Hs as <-; apply newq_refl] end|].
  destruct (queue_find _ h) as [q|]; inv_bind E; (eapply newq_trans; [eapply run_calls_newq; eassumption|]).
  - dif_in E R.
    + dif_in E Hh; [|discriminate]. injection E as <-. apply send_newq.
    + dif_in E Hh; [discriminate|]. inv_bind E. inv_bind E.
      match goal with Ha : (if q_cb q then _ else _) = Ok _, Hb : (if negb (q_cb q) || _ then _ else _) = Ok _ |- _ => 
        eapply fail_newq in Ha; [|intros; eapply run_calls_newq; eassumption]; eapply fail_newq in Hb; [|intros; eapply run_calls_newq; eassumption] end.
      eapply newq_trans; [eassumption|]. eapply newq_trans; [eassumption|]. eapply del_req_newq. exact E.
  - apply run_calls_newq in E. exact E.
Qed.
Lemma handle_all_newq c from l : forall vs s s', handle_all c from l vs s = Ok s' -> newq s s'.
Proof.
  induction l as [|o l IH]; intros vs s s' E; cbn in E; [injection E as <-; apply newq_refl|].
  destruct o as [h ies|e|e|u]; [|exact (IH _ _ _ E)|injection E as <-; apply newq_refl|discriminate].
  inv_bind E. eapply newq_trans; [eapply handle_rx_newq; eassumption|exact (IH _ _ _ E)].
Qed.
Lemma req_timer_newq c q snd k s s' : req_timer c q snd k s = Ok s' -> newq s s'.
Proof.
  unfold req_timer. cbv zeta. set (s1 := log _ s).
  assert (H1 : newq s s1) by (apply newq_same; reflexivity).
  assert (DROP : forall s2 s3, bind (if q_cb q then run_calls c k (log (OResp (q_id q) None) s2) else Ok s2) (queue_del_req (q_id q)) = Ok s3 -> newq s2 s3).
  { intros s2 s3 E. inv_bind E. eapply newq_trans; [|eapply del_req_newq; exact E].
    eapply fail_newq; [|eassumption]. intros; eapply run_calls_newq; eassumption. }
  destruct (q_n1 q =? 0); [intros E; exact (newq_trans _ _ _ H1 (DROP _ _ E))|].
  pose proof (send_newq s1 (Some (q_id q)) (q_remote q) (q_enc q) snd) as Hs. destruct (send_data _ _ _ _ _) as [s2 [|]]; cbn [fst] in Hs.
  - intros [= <-]. eapply newq_trans; [exact H1|]. eapply newq_trans; [exact Hs|]. split; [reflexivity|].
    cbn. intros x Hx. rewrite in_app_iff in *. destruct Hx as [Hx|Hx]; [|tauto]. unfold upd_id in Hx. apply in_map_iff in Hx.
    destruct Hx as (y & Ey & Hy). cbn in Ey. destruct (q_id y =? q_id q); subst x; [|tauto]. right. cbn. lia.
  - intros E. eapply newq_trans; [exact H1|]. eapply newq_trans; [exact Hs|]. exact (DROP _ _ E).
Qed.
(* no queue entry is overdue *)
Definition none_overdue (s : ep) : Prop := forall q, In q (e_reqs s ++ e_resps s) -> e_now s <= q_dl q.
Lemma newq_none_overdue s s' : newq s s' -> none_overdue s -> none_overdue s'.
Proof. intros [A B] H q Hq. rewrite A. destruct (B q Hq); [apply H|]; assumption. Qed.
Lemma step_none_overdue c s ev s' : none_overdue s ->
  (match ev with ETick dt => forall q, In q (e_reqs s ++ e_resps s) -> e_now s + dt <= q_dl q | _ => True end) ->
  step c s ev = Ok s' -> none_overdue s'.
Proof.
  intros H Hp E. destruct ev as [a|from d vs|dt|id snd k]; cbn [step] in E.
  - eapply newq_none_overdue; [eapply run_call_newq; exact E|exact H].
  - dif_in E Eo; [|injection E as <-; exact H]. eapply newq_none_overdue; [eapply handle_all_newq; exact E|exact H].
  - injection E as <-. exact Hp.
  - destruct (find_id id (e_reqs s)) as [q|]; [|destruct (find_id id (e_resps s)) as [q|]]; [| |injection E as <-; exact H].
    + dif_in E Ed; [|injection E as <-; exact H]. eapply newq_none_overdue; [eapply req_timer_newq; exact E|exact H].
    + dif_in E Ed; [|injection E as <-; exact H]. apply del_resp_newq in E. eapply newq_none_overdue; [exact E|exact H].
Qed.

(* ... and all histories in which timers are handled in time *)
Lemma run_prompt c cl evs : forall s s' T, WF s -> none_overdue s -> prompt c s evs -> (cl = false -> Forall (event_free is_close) evs) ->
  run c s evs = Ok s' -> e_now s' <= T -> Adv c (D_eq T) cl s s' /\ none_overdue s'.
Proof.
  induction evs as [|ev evs IH]; intros s s' T H Ho Hp Hc E HT; cbn in E; [injection E as <-; split; [apply adv_refl|]; assumption|].
  inv_bind E. rename x into s1. match goal with Hs : step c s ev = Ok s1 |- _ => rename Hs into E1 end. cbn in Hp. rewrite E1 in Hp. destruct Hp as [Hp1 Hp2].
  assert (Hc1 : cl = false -> event_free is_close ev) by (intros C; specialize (Hc C); inversion Hc; assumption).
  assert (Hc2 : cl = false -> Forall (event_free is_close) evs) by (intros C; specialize (Hc C); inversion Hc; assumption).
  assert (A0 : Adv c (fun _ _ => True) cl s s1) by (eapply step_adv; [exact H|exact Hc1|intros ? ? ?; exact I|exact E1]).
  pose proof (step_none_overdue _ _ _ _ Ho Hp1 E1) as Ho1.
  destruct (IH s1 s' T (adv_wf _ _ _ _ _ A0) Ho1 Hp2 Hc2 E HT) as [A2 Ho2]. split; [|assumption].
  eapply adv_trans; [|exact A2]. eapply step_adv; [exact H|exact Hc1| |exact E1].
  intros q Hq Hd. specialize (Ho q Hq). pose proof (adv_now _ _ _ _ _ A0). pose proof (adv_now _ _ _ _ _ A2). split; lia.
Qed.
Lemma create_none_overdue time : none_overdue (ep_create time).
Proof. intros q []. Qed.

(* ---------------------------------------------------------------- reachable states *)

Lemma reach_wf c s : reachable c s -> WF s.
Proof. intros (time & evs & E). eapply adv_wf, (run_adv c true); [apply wf_create|discriminate|exact E|apply N.le_refl]. Qed.
Lemma reach_lives c s id : reachable c s -> id < e_next s -> lives c (D_le (e_now s)) true id s.
Proof.
  intros (time & evs & E) Hid. eapply adv_born; [eapply (run_adv c true); [apply (wf_create time)|discriminate|exact E|apply N.le_refl]|cbn; lia|assumption].
Qed.
Lemma reach_run c s evs s' : reachable c s -> run c s evs = Ok s' -> reachable c s'.
Proof. intros (time & evs0 & E) E2. exists time, (evs0 ++ evs). rewrite run_app, E. exact E2. Qed.

Lemma wf_about s id o : WF s -> In o (e_trace s) -> about id o = true -> id < e_next s.
Proof.
  intros H Ho Ha. destruct (N.lt_ge_cases id (e_next s)) as [|Hge]; [assumption|]. pose proof (wf_new s H id Hge) as Hn.
  apply (in_tr_of id o (e_trace s) Ha) in Ho. rewrite Hn in Ho. destruct Ho.
Qed.

(* a message given to the endpoint, with what is known about it *)
Record known (c : ep_cfg) (D : N -> N -> Prop) (cl : bool) (s : ep) (id : N) (m : minfo) (p : phase) : Prop := mkKnown {
  kn_life : life c D cl id m (tr_of id (e_trace s)) p;
  kn_inv : linv c D cl id m (tr_of id (e_trace s)) p;
  kn_phase : in_phase s id m p;
}.
Lemma lives_known c D cl id s : lives c D cl id s -> exists m p, known c D cl s id m p.
Proof. intros (m & p & L & P). exists m, p. constructor; [exact L|apply life_inv; exact L|exact P]. Qed.
Lemma reach_known c s id : reachable c s -> id < e_next s -> exists m p, known c (D_le (e_now s)) true s id m p.
Proof. intros H Hid. apply lives_known, reach_lives; assumption. Qed.
Lemma known_tx c D cl s id m p to h ies cb : known c D cl s id m p -> In (OTx id to h ies cb) (e_trace s) ->
  mi_to m = to /\ mi_h m = h /\ mi_ies m = ies /\ mi_cb m = cb.
Proof.
  intros [_ [_ L _ _ _] _] H. apply (in_tr_of id) in H; [|cbn; apply N.eqb_refl]. destruct (L _ _ _ _ H) as (-> & -> & -> & ->). auto.
Qed.
Lemma tx_known c s id to h ies cb : reachable c s -> In (OTx id to h ies cb) (e_trace s) ->
  exists m p, known c (D_le (e_now s)) true s id m p /\ mi_to m = to /\ mi_h m = h /\ mi_ies m = ies /\ mi_cb m = cb.
Proof.
  intros H Ht. destruct (reach_known c s id H) as (m & p & K).
  { eapply wf_about; [exact (reach_wf c s H)|exact Ht|]. cbn. apply N.eqb_refl. }
  exists m, p. split; [assumption|]. exact (known_tx _ _ _ _ _ _ _ _ _ _ _ K Ht).
Qed.
(* counts over the whole trace *)
Definition obs_all (id : N) (s : ep) : obs := obs_of id (e_trace s).
Lemma obs_tr id s : obs_of id (tr_of id (e_trace s)) = obs_all id s.
Proof.
  unfold obs_all, obs_of. f_equal; apply count_tr_of; intros o; destruct o as [| [i|] |[i|]|[i|]|? [[]|]|? ? ? [i|]| | |]; cbn; congruence.
Qed.
Lemma spaced_mono (R R' : N -> N -> Prop) d l : (forall a b, R a b -> R' a b) -> spaced R d l -> spaced R' d l.
Proof. intros H. induction l as [|x [|y l] IH]; cbn; try tauto. intros [A B]. split; [auto|]. apply IH. exact B. Qed.
Lemma resp_cb_count id tr : count (is_resp_cb id) tr = count (is_resp_fail id) tr + count (is_resp_ok id) tr.
Proof.
  induction tr as [|o tr IH]; [reflexivity|]. rewrite !count_cons, IH. destruct o as [| | | |i [r|]| | | |]; cbn; try lia; destruct (i =? id); lia.
Qed.
