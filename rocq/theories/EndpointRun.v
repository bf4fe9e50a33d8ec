(* EndpointRun.v -- every event lets every message live on as described in EndpointSpec.v *)
From Verif Require Import Base BaseProofs GtlvModel DecEncModel IesModel IesProofs TablesModel MsgModel EndpointModel EndpointSpec EndpointProofs.

(* ---------------------------------------------------------------- calls *)

Lemma call_ind' (P : call -> Prop) :
  (forall to h ies has_cb snd k, Forall P k -> P (CTx to h ies has_cb snd k)) ->
  (forall to h ies snd, P (CTxData to h ies snd)) -> (forall to snd, P (CHeartbeat to snd)) -> (forall n, P (CSetSeq n)) ->
  P CClose -> (forall ok, P (CBind ok)) -> forall a, P a.
Proof.
  intros H1 H2 H3 H4 H5 H6. fix IH 1. intros [to h ies has_cb snd k|to h ies snd|to snd|n| |ok].
  - apply H1. induction k as [|a k IHk]; constructor; [apply IH|assumption].
  - apply H2.
  - apply H3.
  - apply H4.
  - apply H5.
  - apply H6.
Qed.
Lemma ep_tx_ext c f g s to h ies has_cb snd : (forall s, f s = g s) -> ep_tx c f s to h ies has_cb snd = ep_tx c g s to h ies has_cb snd.
Proof.
  intros H. unfold ep_tx, queue_add. destruct (encode_msg _ _); [|rewrite !H; reflexivity|reflexivity].
  destruct (send_data _ _ _ _ _) as [s' b]. destruct b; rewrite !H; reflexivity.
Qed.
Lemma run_call_tx c to h ies has_cb snd k s : run_call c (CTx to h ies has_cb snd k) s = ep_tx c (run_calls c k) s to h ies has_cb snd.
Proof.
  cbn [run_call]. apply ep_tx_ext. intros s'. revert s'. induction k as [|x k IH]; intros s'; cbn; [reflexivity|].
  destruct (run_call c x s'); cbn; [apply IH|reflexivity|reflexivity].
Qed.

Section Run.
Variables (c : ep_cfg) (D : N -> N -> Prop) (cl : bool).
Notation Fr := (Fr c D cl).

Lemma run_calls_fr_list k : Forall (fun a => forall s s', (cl = false -> call_has is_close a = false) -> WF s -> run_call c a s = Ok s' -> Fr None s s') k ->
  forall s s', (cl = false -> calls_have is_close k = false) -> WF s -> run_calls c k s = Ok s' -> Fr None s s'.
Proof.
  induction k as [|a k IH]; intros Hk s s' Hc H E; cbn in E; [injection E as <-; apply fr_refl; assumption|].
  inversion Hk as [|? ? Ha Hk']; subst. inv_bind E.
  assert (Hc1 : cl = false -> call_has is_close a = false) by (intros C; specialize (Hc C); cbn in Hc; apply orb_false_iff in Hc; tauto).
  assert (Hc2 : cl = false -> calls_have is_close k = false) by (intros C; specialize (Hc C); cbn in Hc; apply orb_false_iff in Hc; tauto).
  match goal with Hr : run_call c a s = Ok ?x |- _ => pose proof (Ha s x Hc1 H Hr) as F; pose proof (IH Hk' x s' Hc2 (fr_wf _ _ _ _ _ _ F) E) as F2 end.
  eapply fr_trans; [exact F|exact F2|discriminate].
Qed.
Lemma run_call_fr a : forall s s', (cl = false -> call_has is_close a = false) -> WF s -> run_call c a s = Ok s' -> Fr None s s'.
Proof.
  induction a as [to h ies has_cb snd k IH|to h ies snd|to snd|n| |ok] using call_ind'; intros s s' Hc H E.
  - rewrite run_call_tx in E. eapply ep_tx_fr; [|exact H|exact E]. intros s1 s2 W E1. eapply run_calls_fr_list; [exact IH| |exact W|exact E1].
    intros C. specialize (Hc C). cbn in Hc. exact Hc.
  - eapply tx_data_fr; [exact H|exact E].
  - eapply heartbeat_fr; [exact H|exact E].
  - injection E as <-. apply fr_same; try assumption; reflexivity.
  - injection E as <-. apply close_fr; [|assumption]. destruct cl; [reflexivity|]. specialize (Hc eq_refl). discriminate.
  - injection E as <-. eapply fr_trans; [apply close_fr| |discriminate]; [|exact H|].
    + destruct cl; [reflexivity|]. specialize (Hc eq_refl). discriminate.
    + apply fr_same; try reflexivity. refine (fr_wf _ _ true _ _ _ (close_fr c D true s eq_refl H)).
Qed.
Lemma run_calls_fr k s s' : (cl = false -> calls_have is_close k = false) -> WF s -> run_calls c k s = Ok s' -> Fr None s s'.
Proof. apply run_calls_fr_list. apply Forall_forall. intros a _. apply run_call_fr. Qed.

(* ---------------------------------------------------------------- one event *)

Record Adv (s s' : ep) : Prop := mkAdv {
  adv_wf : WF s';
  adv_now : e_now s <= e_now s';
  adv_recov : e_recov s' = e_recov s;
  adv_next : e_next s <= e_next s';
  adv_old : forall id m p, id < e_next s -> in_phase s id m p ->
    exists p', lsteps c D cl id m (tr_of id (e_trace s)) p (tr_of id (e_trace s')) p' /\ in_phase s' id m p';
  adv_born : forall id, e_next s <= id -> id < e_next s' -> lives c D cl id s';
}.
Lemma adv_trans s1 s2 s3 : Adv s1 s2 -> Adv s2 s3 -> Adv s1 s3.
Proof.
  intros [A1 A2 A3 A4 A5 A6] [B1 B2 B3 B4 B5 B6]. constructor; try congruence; [lia|lia| |].
  - intros id m p Hid Hp. destruct (A5 id m p Hid Hp) as (p1 & L1 & Hp1). destruct (B5 id m p1) as (p2 & L2 & Hp2); [lia|assumption|].
    exists p2. split; [|assumption]. eapply lsteps_trans; eassumption.
  - intros id H1 H2. destruct (id <? e_next s2) eqn:E; [|apply B6; lia].
    destruct (A6 id) as (m & p & (tr0 & p0 & Hb & Hl) & Hp); [lia|lia|].
    destruct (B5 id m p) as (p2 & L2 & Hp2); [lia|assumption|]. exists m, p2. split; [|assumption].
    exists tr0, p0. split; [assumption|]. eapply lsteps_trans; eassumption.
Qed.
Lemma adv_fr s s' : Fr None s s' -> Adv s s'.
Proof.
  intros [A1 A2 A3 A4 A5 A6]. constructor; try assumption; [lia|]. intros id m p Hid Hp. apply keeps_lsteps; [|assumption].
  apply A5; [assumption|discriminate].
Qed.
Lemma adv_refl s : WF s -> Adv s s.
Proof. intros H. apply adv_fr, fr_refl. assumption. Qed.
Lemma adv_one id s s' : Fr (Some id) s s' -> id < e_next s ->
  (forall m p, in_phase s id m p -> exists p', lsteps c D cl id m (tr_of id (e_trace s)) p (tr_of id (e_trace s')) p' /\ in_phase s' id m p') ->
  Adv s s'.
Proof.
  intros [A1 A2 A3 A4 A5 A6] Hid H. constructor; try assumption; [lia|]. intros i m p Hi Hp.
  destruct (i =? id) eqn:E; [apply N.eqb_eq in E; subst i; apply H; assumption|].
  apply keeps_lsteps; [|assumption]. apply A5; [assumption|]. intros [= ->]. rewrite N.eqb_refl in E. discriminate.
Qed.

(* a queued message while it is being handled: [T] observed, entry [e]; or closed by a callback *)
Record held (s0 : ep) (id : N) (T : list out) (e : option qe * option qe) (s : ep) : Prop := mkHeld {
  hd_fr : Fr (Some id) s0 s; hd_lt : id < e_next s0;
  hd_T : (tr_of id (e_trace s) = T /\ ent id s = e) \/ ent id s = (None, None)
}.
Lemma held_log s0 id T e s o : held s0 id T e s -> about id o = true -> (forall i, about i o = true -> i = id) -> held s0 id (o :: T) e (log o s).
Proof.
  intros [A B C] Ho Hi. constructor; [|assumption|].
  - eapply fr_trans; [exact A| |].
    + eapply fr_log with (id := id); [exact (fr_wf _ _ _ _ _ _ A)| |reflexivity|pose proof (fr_next _ _ _ _ _ _ A); lia].
      intros i Hi'. rewrite (Hi i Hi'). reflexivity.
    + intros i [= <-]. assumption.
  - destruct C as [[C E]|C]; [left|right; exact C]. split; [|exact E]. unfold tr_of. cbn [e_trace log filter]. rewrite Ho. f_equal. exact C.
Qed.
Lemma held_calls s0 id T e s s' : held s0 id T e s -> Fr None s s' -> held s0 id T e s'.
Proof.
  intros [A B C] F. assert (Hk : keeps cl id s s'). { apply (fr_old _ _ _ _ _ _ F); [pose proof (fr_next _ _ _ _ _ _ A); lia|discriminate]. }
  constructor; [|assumption|].
  - eapply fr_trans; [exact A|apply fr_weaken; exact F|]. intros i [= <-]. assumption.
  - destruct Hk as [[H1 H2]|(_ & H & _ & H2)]; [|right; exact H2]. destruct C as [[C1 C2]|C]; [left; split; congruence|right; congruence].
Qed.
Lemma held_start s id : WF s -> id < e_next s -> held s id (tr_of id (e_trace s)) (ent id s) s.
Proof. intros H Hid. constructor; [apply fr_refl; assumption|assumption|left; split; reflexivity]. Qed.
Ltac aboutid := cbn; intros; try (rewrite N.eqb_refl; reflexivity); try (apply N.eqb_eq; assumption); try lia.

Lemma wf_upd s q : WF s -> is_response (hd_type (q_h q)) = false -> WF (set_reqs (upd_id q (e_reqs s)) s).
Proof.
  intros H Hq. apply wf_sub; [assumption| | | |apply wf_rs; assumption].
  - rewrite map_app, upd_ids, <- map_app. apply wf_nodup. assumption.
  - intros x Hx. assert (Hm : In (q_id x) (map q_id (e_reqs s ++ e_resps s))).
    { rewrite map_app, <- (upd_ids q (e_reqs s)), <- map_app. apply in_map. assumption. }
    apply in_map_iff in Hm. destruct Hm as (y & <- & Hy). exact (wf_lt s H y Hy).
  - intros x Hx. unfold upd_id in Hx. apply in_map_iff in Hx. destruct Hx as (y & Ey & Hy). destruct (q_id y =? q_id q).
    + subst x. assumption.
    + subst x. exact (wf_rq s H y Hy).
Qed.
Lemma wf_del_req s id : WF s -> WF (set_reqs (del_id id (e_reqs s)) s).
Proof.
  intros H. pose proof (wf_nodup s H) as Hn. apply wf_sub; [assumption| | | |apply wf_rs; assumption].
  - rewrite map_app in *. revert Hn. generalize (map q_id (e_resps s)). intros l.
    induction (e_reqs s) as [|x r IH]; cbn; [auto|]. intros Hn. inversion Hn as [|? ? H1 H2]; subst.
    destruct (negb (q_id x =? id)); cbn; [|auto]. constructor; [|auto]. rewrite in_app_iff in *. intros [Hx|Hx]; [|tauto].
    apply H1. left. apply in_map_iff in Hx. destruct Hx as (y & E & Hy). apply in_map_iff. exists y. split; [assumption|exact (del_in _ _ _ Hy)].
  - intros q Hq. apply (wf_lt s H). rewrite in_app_iff in *. destruct Hq as [Hq|Hq]; [left; exact (del_in _ _ _ Hq)|tauto].
  - intros q Hq. apply (wf_rq s H). exact (del_in _ _ _ Hq).
Qed.
Lemma wf_del_resp s id : WF s -> WF (set_resps (del_id id (e_resps s)) s).
Proof.
  intros H. pose proof (wf_nodup s H) as Hn. apply wf_sub; [assumption| | |apply wf_rq; assumption|].
  - rewrite map_app in *. revert Hn. generalize (map q_id (e_reqs s)). intros l.
    induction l as [|x r IH]; cbn; [apply nodup_filter|]. intros Hn. inversion Hn as [|? ? H1 H2]; subst. constructor; [|auto].
    rewrite in_app_iff in *. intros [Hx|Hx]; [tauto|].
    apply H1. right. apply in_map_iff in Hx. destruct Hx as (y & E & Hy). apply in_map_iff. exists y. split; [assumption|exact (del_in _ _ _ Hy)].
  - intros q Hq. apply (wf_lt s H). rewrite in_app_iff in *. destruct Hq as [Hq|Hq]; [tauto|right; exact (del_in _ _ _ Hq)].
  - intros q Hq. apply (wf_rs s H). exact (del_in _ _ _ Hq).
Qed.

(* changing the queues for message [id] only *)
Lemma fr_queue id s reqs resps : WF s -> id < e_next s -> WF (mkEp reqs resps (e_seq s) (e_recov s) (e_open s) (e_now s) (e_next s) (e_trace s)) ->
  (forall i, i <> id -> find_id i reqs = find_id i (e_reqs s) /\ find_id i resps = find_id i (e_resps s)) ->
  Fr (Some id) s (mkEp reqs resps (e_seq s) (e_recov s) (e_open s) (e_now s) (e_next s) (e_trace s)).
Proof.
  intros H Hid W Hf. constructor; try reflexivity; [assumption| |cbn; lia].
  intros i Hi Hne. left. split; [reflexivity|]. unfold ent. cbn [e_reqs e_resps]. destruct (Hf i) as [A B]; [congruence|]. rewrite A, B. reflexivity.
Qed.

Lemma held_del_req s0 id T q s s' : held s0 id T (Some q, None) s -> queue_del_req id s = Ok s' ->
  Fr (Some id) s0 s' /\ tr_of id (e_trace s') = OFree id :: T /\ ent id s' = (None, None).
Proof.
  intros [A B C] E. unfold queue_del_req in E. dif_in E Eh; [|discriminate]. injection E as <-.
  destruct C as [[C1 C2]|C].
  2:{ rewrite has_id_find in Eh. unfold ent in C. injection C as C1 C2. rewrite C1 in Eh. discriminate. }
  pose proof (fr_wf _ _ _ _ _ _ A) as W. pose proof (fr_next _ _ _ _ _ _ A) as Hn.
  assert (Wd : WF (set_reqs (del_id id (e_reqs s)) s)) by (apply wf_del_req; assumption).
  assert (F : Fr (Some id) s (set_reqs (del_id id (e_reqs s)) s)).
  { apply fr_queue; [assumption|lia|exact Wd|]. intros i Hi. rewrite find_del. replace (i =? id) with false by lia. tauto. }
  split; [|split].
  - eapply fr_trans; [exact A| |intros i [= <-]; assumption]. eapply fr_trans; [exact F| |intros i [= <-]; cbn; lia].
    eapply fr_log with (id := id); [assumption|aboutid|reflexivity|cbn; lia]. f_equal. lia.
  - unfold tr_of. cbn [e_trace log filter about]. rewrite N.eqb_refl. f_equal. exact C1.
  - unfold ent in *. injection C2 as _ C2. cbn [e_reqs e_resps set_reqs log]. rewrite find_del, N.eqb_refl, C2. reflexivity.
Qed.
Lemma held_del_resp s0 id T q s s' : held s0 id T (None, Some q) s -> queue_del_resp id s = Ok s' ->
  Fr (Some id) s0 s' /\ tr_of id (e_trace s') = OFree id :: T /\ ent id s' = (None, None).
Proof.
  intros [A B C] E. unfold queue_del_resp in E. dif_in E Eh; [|discriminate]. injection E as <-.
  destruct C as [[C1 C2]|C].
  2:{ rewrite has_id_find in Eh. unfold ent in C. injection C as C1 C2. rewrite C2 in Eh. discriminate. }
  pose proof (fr_wf _ _ _ _ _ _ A) as W. pose proof (fr_next _ _ _ _ _ _ A) as Hn.
  assert (Wd : WF (set_resps (del_id id (e_resps s)) s)) by (apply wf_del_resp; assumption).
  assert (F : Fr (Some id) s (set_resps (del_id id (e_resps s)) s)).
  { apply fr_queue; [assumption|lia|exact Wd|]. intros i Hi. rewrite find_del. replace (i =? id) with false by lia. tauto. }
  split; [|split].
  - eapply fr_trans; [exact A| |intros i [= <-]; assumption]. eapply fr_trans; [exact F| |intros i [= <-]; cbn; lia].
    eapply fr_log with (id := id); [assumption|aboutid|reflexivity|cbn; lia]. f_equal. lia.
  - unfold tr_of. cbn [e_trace log filter about]. rewrite N.eqb_refl. f_equal. exact C1.
  - unfold ent in *. injection C2 as C2 _. cbn [e_reqs e_resps set_resps log]. rewrite find_del, N.eqb_refl, C2. reflexivity.
Qed.

(* the phase of a queued message *)
Lemma phase_req s id m p q : WF s -> in_phase s id m p -> ent id s = (Some q, None) ->
  p = PWait (q_n1 q) (q_dl q) /\ q = mkQe id (mi_to m) (mi_hdr m) (mi_bs m) (mi_cb m) (q_n1 q) (q_dl q) /\ mi_resp m = false.
Proof.
  intros W Hp He. unfold ent in He. injection He as E1 E2. unfold in_phase in Hp.
  destruct p as [k dl|dl|]; destruct Hp as [H1 H2]; rewrite E1 in H1; rewrite E2 in H2; try discriminate.
  injection H1 as H1. subst q. repeat split. apply find_id_some in E1. destruct E1 as [E1 _]. exact (wf_rq s W _ E1).
Qed.
Lemma phase_resp s id m p q : WF s -> in_phase s id m p -> ent id s = (None, Some q) ->
  p = PCached (q_dl q) /\ q = mkQe id (mi_to m) (mi_hdr m) (mi_bs m) (mi_cb m) 0 (q_dl q) /\ mi_resp m = true.
Proof.
  intros W Hp He. unfold ent in He. injection He as E1 E2. unfold in_phase in Hp.
  destruct p as [k dl|dl|]; destruct Hp as [H1 H2]; rewrite E1 in H1; rewrite E2 in H2; try discriminate.
  injection H2 as H2. subst q. repeat split. apply find_id_some in E2. destruct E2 as [E2 _]. exact (wf_rs s W _ E2).
Qed.
Lemma wf_ent_req s q : WF s -> In q (e_reqs s) -> ent (q_id q) s = (Some q, None).
Proof.
  intros H Hq. unfold ent. f_equal; [apply find_id_nodup; [apply wf_reqs|]; assumption|]. apply find_id_none. intros Hi.
  pose proof (wf_nodup s H) as Hn. rewrite map_app in Hn. apply (in_map q_id) in Hq. revert Hn Hq Hi. generalize (map q_id (e_reqs s)), (q_id q).
  intros l x. induction l as [|y l IH]; cbn; [tauto|]. intros Hn [->|Hx] Hi; inversion Hn as [|? ? H1 H2]; subst.
  - apply H1. apply in_app_iff. tauto.
  - tauto.
Qed.
Lemma wf_ent_resp s q : WF s -> In q (e_resps s) -> ent (q_id q) s = (None, Some q).
Proof.
  intros H Hq. unfold ent. f_equal; [|apply find_id_nodup; [apply wf_resps|]; assumption]. apply find_id_none. intros Hi.
  pose proof (wf_nodup s H) as Hn. rewrite map_app in Hn. apply (in_map q_id) in Hq. revert Hn Hq Hi. generalize (map q_id (e_reqs s)), (q_id q).
  intros l x. induction l as [|y l IH]; cbn; [tauto|]. intros Hn Hx [->|Hi]; inversion Hn as [|? ? H1 H2]; subst.
  - apply H1. apply in_app_iff. tauto.
  - tauto.
Qed.

Lemma resp_timer_adv q s s' : WF s -> In q (e_resps s) -> D (q_dl q) (e_now s) -> resp_timer q s = Ok s' -> Adv s s'.
Proof.
  intros H Hq HD E. unfold resp_timer in E. set (id := q_id q) in *.
  assert (Hid : id < e_next s) by (apply (wf_lt s H); apply in_app_iff; tauto).
  pose proof (held_start s id H Hid) as M. unfold id in M at 3. rewrite (wf_ent_resp s q H Hq) in M.
  eapply held_log with (o := OTimer id (e_now s)) in M; [|aboutid..].
  destruct (held_del_resp _ _ _ _ _ _ M E) as (F & T & En). eapply adv_one; [exact F|assumption|].
  intros m p Hp. destruct (phase_resp s id m p q H Hp (wf_ent_resp s q H Hq)) as (-> & _ & _).
  exists PGone. split; [|apply gone_in_phase; assumption]. rewrite T. apply lsteps_one. constructor. assumption.
Qed.

Lemma req_timer_adv q snd k s s' : WF s -> In q (e_reqs s) -> D (q_dl q) (e_now s) -> (cl = false -> calls_have is_close k = false) ->
  req_timer c q snd k s = Ok s' -> Adv s s'.
Proof.
  intros H Hq HD Hc E. unfold req_timer in E. set (id := q_id q) in *.
  assert (Hid : id < e_next s) by (apply (wf_lt s H); apply in_app_iff; tauto).
  pose proof (held_start s id H Hid) as M. unfold id in M at 3. rewrite (wf_ent_req s q H Hq) in M.
  eapply held_log with (o := OTimer id (e_now s)) in M; [|aboutid..].
  change (e_now (log (OTimer id (e_now s)) s)) with (e_now s) in E. set (s1 := log (OTimer id (e_now s)) s) in *.
  assert (DROP : forall T s2 s3, held s id T (Some q, None) s2 ->
    bind (if q_cb q then run_calls c k (log (OResp id None) s2) else Ok s2) (queue_del_req id) = Ok s3 ->
    Fr (Some id) s s3 /\ tr_of id (e_trace s3) = OFree id :: (if q_cb q then [OResp id None] else []) ++ T /\ ent id s3 = (None, None)).
  { intros T s2 s3 M2 E2. inv_bind E2. destruct (q_cb q).
    - eapply held_del_req; [|exact E2]. eapply held_calls; [|eapply run_calls_fr; [exact Hc| |eassumption]].
      + eapply held_log; [exact M2|aboutid..].
      + apply wf_log; [exact (fr_wf _ _ _ _ _ _ (hd_fr _ _ _ _ _ M2))|]. cbn. intros i Hi. pose proof (fr_next _ _ _ _ _ _ (hd_fr _ _ _ _ _ M2)). lia.
    - match goal with Hs : Ok _ = Ok _ |- _ => injection Hs as <- end. eapply held_del_req; [exact M2|exact E2]. }
  pose proof (fun m p Hp => phase_req s id m p q H Hp (wf_ent_req s q H Hq)) as PH.
  destruct (q_n1 q =? 0) eqn:E0.
  - destruct (DROP _ _ _ M E) as (F & T & En). eapply adv_one; [exact F|assumption|].
    intros m p Hp. destruct (PH m p Hp) as (-> & Eq & Hr). exists PGone. split; [|apply gone_in_phase; assumption].
    rewrite T. apply lsteps_one. replace (q_n1 q) with 0 by lia.
    replace (if q_cb q then [OResp id None] else []) with (fail_cb id m) by (unfold fail_cb; rewrite Hr, Eq; reflexivity).
    constructor. assumption.
  - unfold send_data in E. destruct (e_open s1 && snd).
    + set (s2 := log (OSend (Some id) (e_now s1) (q_remote q) (q_enc q)) s1) in *. injection E as <-.
      set (q' := mkQe id (q_remote q) (q_h q) (q_enc q) (q_cb q) (q_n1 q - 1) (e_now s2 + c_t1 c)).
      assert (M2 : held s id (OSend (Some id) (e_now s) (q_remote q) (q_enc q) :: OTimer id (e_now s) :: tr_of id (e_trace s)) (Some q, None) s2)
        by (apply held_log; [exact M|aboutid..]).
      assert (W2 : WF s2) by exact (fr_wf _ _ _ _ _ _ (hd_fr _ _ _ _ _ M2)).
      assert (Hq' : is_response (hd_type (q_h q')) = false) by exact (wf_rq s H q Hq).
      assert (Hid2 : id < e_next s2) by (pose proof (fr_next _ _ _ _ _ _ (hd_fr _ _ _ _ _ M2)); lia).
      assert (E2 : ent id s2 = (Some q, None)) by exact (wf_ent_req s q H Hq).
      eapply adv_one with (id := id).
      * eapply fr_trans; [exact (hd_fr _ _ _ _ _ M2)| |intros i [= <-]; assumption].
        apply fr_queue; [assumption|assumption|apply (wf_upd s2 q' W2 Hq')|]. intros i Hi. rewrite find_upd. cbn [q_id q'].
        change (q_id q') with id. replace (i =? id) with false by lia. tauto.
      * assumption.
      * intros m p Hp. destruct (PH m p Hp) as (-> & Eq & Hr). exists (PWait (q_n1 q - 1) (e_now s2 + c_t1 c)). split.
        -- assert (Tx : tr_of id (e_trace s2) = OSend (Some id) (e_now s) (mi_to m) (mi_bs m) :: OTimer id (e_now s) :: tr_of id (e_trace s)).
           { destruct (hd_T _ _ _ _ _ M2) as [[T _]|Hn]; [|congruence]. rewrite T, Eq. reflexivity. }
           apply lsteps_one. change (lstep c D cl id m (tr_of id (e_trace s)) (PWait (q_n1 q) (q_dl q)) (tr_of id (e_trace s2)) (PWait (q_n1 q - 1) (e_now s2 + c_t1 c))).
           rewrite Tx. replace (q_n1 q) with ((q_n1 q - 1) + 1) at 1 by lia. constructor. assumption.
        -- assert (Eq' : q' = mkQe id (mi_to m) (mi_hdr m) (mi_bs m) (mi_cb m) (q_n1 q - 1) (e_now s2 + c_t1 c)) by (unfold q'; rewrite Eq; reflexivity).
           unfold in_phase. cbv zeta. rewrite <- Eq'. unfold ent in E2. injection E2 as E21 E22. split; [|exact E22].
           change (find_id id (upd_id q' (e_reqs s2)) = Some q'). rewrite find_upd. change (q_id q') with id. rewrite N.eqb_refl, has_id_find.
           change (e_reqs s2) with (e_reqs s). change (e_reqs s2) with (e_reqs s) in E21. rewrite E21. reflexivity.
    + assert (M2 : held s id (OSendErr (Some id) :: OTimer id (e_now s) :: tr_of id (e_trace s)) (Some q, None) (log (OSendErr (Some id)) s1))
        by (apply held_log; [exact M|aboutid..]).
      destruct (DROP _ _ _ M2 E) as (F & T & En). eapply adv_one; [exact F|assumption|].
      intros m p Hp. destruct (PH m p Hp) as (-> & Eq & Hr). exists PGone. split; [|apply gone_in_phase; assumption].
      rewrite T. apply lsteps_one. replace (q_n1 q) with ((q_n1 q - 1) + 1) by lia.
      replace (if q_cb q then [OResp id None] else []) with (fail_cb id m) by (unfold fail_cb; rewrite Hr, Eq; reflexivity).
      constructor. assumption.
Qed.

Lemma queue_find_some l h q : queue_find l h = Some q ->
  In q l /\ is_response (hd_type (q_h q)) = negb (is_response (hd_type h)) /\ hd_seq (q_h q) = hd_seq h.
Proof.
  unfold queue_find. intros H. apply find_some in H. destruct H as [H1 H2]. apply andb_true_iff in H2. destruct H2 as [H2 H3].
  split; [assumption|]. split; [|lia]. destruct (is_response (hd_type (q_h q))), (is_response (hd_type h)); cbn in *; congruence.
Qed.

Lemma handle_rx_adv s from h ies v s' : WF s -> (cl = false -> env_has is_close v = false) -> handle_rx c s from h ies v = Ok s' -> Adv s s'.
Proof.
  intros H Hc E. unfold handle_rx in E. inv_bind E.
  match goal with Hs : (if hd_type h =? _ then _ else _) = Ok ?x |- _ => rename Hs into E0; rename x into s1 end.
  assert (F0 : Fr None s s1). { dif_in E0 Eh; [eapply tx_data_fr; [exact H|exact E0]|injection E0 as <-; apply fr_refl; assumption]. }
  eapply adv_trans; [apply adv_fr; exact F0|]. pose proof (fr_wf _ _ _ _ _ _ F0) as H1. clear F0 E0 H s.
  assert (Hc1 : cl = false -> calls_have is_close (v_ctx v) = false) by (intros C; specialize (Hc C); unfold env_has in Hc; rewrite !orb_false_iff in Hc; tauto).
  assert (Hc2 : cl = false -> calls_have is_close (v_resp v) = false) by (intros C; specialize (Hc C); unfold env_has in Hc; rewrite !orb_false_iff in Hc; tauto).
  assert (Hc3 : cl = false -> calls_have is_close (v_rx v) = false) by (intros C; specialize (Hc C); unfold env_has in Hc; rewrite !orb_false_iff in Hc; tauto).
  destruct (queue_find _ h) as [q|] eqn:Q; inv_bind E;
  match goal with Hs : run_calls c (v_ctx v) s1 = Ok ?x |- _ => rename Hs into E1; rename x into s2 end;
  pose proof (run_calls_fr _ _ _ Hc1 H1 E1) as F1; pose proof (fr_wf _ _ _ _ _ _ F1) as H2.
  2:{ eapply adv_trans; [apply adv_fr; exact F1|].
      assert (F2 : Fr None s2 (log (ODispatch from h ies None) s2)) by (apply fr_log_none; [assumption|reflexivity]).
      eapply adv_trans; [apply adv_fr; exact F2|]. apply adv_fr. eapply run_calls_fr; [exact Hc3|exact (fr_wf _ _ _ _ _ _ F2)|exact E]. }
  apply queue_find_some in Q. destruct Q as (Q1 & Q2 & Q3). set (id := q_id q) in *.
  destruct (is_response (hd_type h)) eqn:R; cbn [negb] in E, Q2.
  - (* response *)
    destruct (has_id id (e_reqs s2)) eqn:Hh; cbn [negb] in E; [|discriminate]. inv_bind E. inv_bind E.
    match goal with Ha : (if q_cb q then _ else _) = Ok ?x, Hb : (if negb (q_cb q) || _ then _ else _) = Ok ?y |- _ => rename Ha into X2; rename Hb into X3; rename x into s3; rename y into s4 end.
    assert (Hid : id < e_next s1) by (apply (wf_lt s1 H1); apply in_app_iff; tauto).
    pose proof (held_start s1 id H1 Hid) as M. unfold id in M at 3. rewrite (wf_ent_req s1 q H1 Q1) in M.
    eapply held_calls in M; [|exact F1].
    assert (LOG : forall T o s s', held s1 id T (Some q, None) s -> about id o = true -> (forall i, about i o = true -> i = id) ->
      forall k, (cl = false -> calls_have is_close k = false) -> run_calls c k (log o s) = Ok s' -> held s1 id (o :: T) (Some q, None) s').
    { intros T o s s5 Mx Ho Hi k Hk Ek. eapply held_log in Mx; [|exact Ho|exact Hi].
      eapply held_calls; [exact Mx|]. eapply run_calls_fr; [exact Hk|exact (fr_wf _ _ _ _ _ _ (hd_fr _ _ _ _ _ Mx))|exact Ek]. }
    assert (M3 : held s1 id ((if q_cb q then [OResp id (Some (h, ies))] else []) ++ tr_of id (e_trace s1)) (Some q, None) s3).
    { destruct (q_cb q); [|injection X2 as <-; exact M]. eapply LOG; [exact M|aboutid|aboutid|exact Hc2|exact X2]. }
    set (disp := negb (q_cb q) || v_rc1 v) in *.
    assert (M4 : held s1 id ((if disp then [ODispatch from h ies (Some id)] else []) ++ (if q_cb q then [OResp id (Some (h, ies))] else []) ++ tr_of id (e_trace s1)) (Some q, None) s4).
    { destruct disp; [|injection X3 as <-; exact M3]. eapply LOG; [exact M3|aboutid|aboutid|exact Hc3|exact X3]. }
    destruct (held_del_req _ _ _ _ _ _ M4 E) as (F & T & En). eapply adv_one; [exact F|assumption|].
    intros m p Hp. destruct (phase_req s1 id m p q H1 Hp (wf_ent_req s1 q H1 Q1)) as (-> & Eq & Hr).
    exists PGone. split; [|apply gone_in_phase; assumption]. rewrite T. apply lsteps_one.
    replace (q_cb q) with (mi_cb m) by (rewrite Eq; reflexivity). constructor; [assumption| |].
    + rewrite <- Q3, Eq. reflexivity.
    + unfold disp. rewrite Eq. cbn. destruct (mi_cb m), (v_rc1 v); reflexivity.
  - (* request *)
    destruct (has_id id (e_resps s2)) eqn:Hh; [|discriminate]. injection E as <-.
    assert (Hid : id < e_next s1) by (apply (wf_lt s1 H1); apply in_app_iff; tauto).
    pose proof (held_start s1 id H1 Hid) as M. unfold id in M at 3. rewrite (wf_ent_resp s1 q H1 Q1) in M.
    eapply held_calls in M; [|exact F1].
    destruct (hd_T _ _ _ _ _ M) as [[T0 En0]|Hn].
    2:{ exfalso. rewrite has_id_find in Hh. unfold ent in Hn. injection Hn as _ Hn. rewrite Hn in Hh. discriminate. }
    unfold send_data. destruct (e_open s2 && v_resend v); cbn [fst].
    + eapply held_log with (o := OSend (Some id) (e_now s2) (q_remote q) (q_enc q)) in M; [|aboutid..].
      eapply adv_one; [exact (hd_fr _ _ _ _ _ M)|assumption|]. intros m p Hp.
      destruct (phase_resp s1 id m p q H1 Hp (wf_ent_resp s1 q H1 Q1)) as (-> & Eq & Hr). exists (PCached (q_dl q)). split.
      * replace (tr_of id (e_trace (log _ s2))) with (OSend (Some id) (e_now s2) (mi_to m) (mi_bs m) :: tr_of id (e_trace s1)).
        { apply lsteps_one. constructor. }
        unfold tr_of. cbn [e_trace log filter about]. rewrite N.eqb_refl. rewrite Eq. cbn [q_remote q_enc]. f_equal. symmetry. exact T0.
      * unfold in_phase. cbv zeta. rewrite <- Eq. unfold ent in En0. injection En0 as En1 En2. split; [exact En1|exact En2].
    + eapply held_log with (o := OSendErr (Some id)) in M; [|aboutid..].
      eapply adv_one; [exact (hd_fr _ _ _ _ _ M)|assumption|]. intros m p Hp.
      destruct (phase_resp s1 id m p q H1 Hp (wf_ent_resp s1 q H1 Q1)) as (-> & Eq & Hr). exists (PCached (q_dl q)). split.
      * replace (tr_of id (e_trace (log _ s2))) with (OSendErr (Some id) :: tr_of id (e_trace s1)).
        { apply lsteps_one. constructor. }
        unfold tr_of. cbn [e_trace log filter about]. rewrite N.eqb_refl. f_equal. symmetry. exact T0.
      * unfold in_phase. cbv zeta. rewrite <- Eq. unfold ent in En0. injection En0 as En1 En2. split; [exact En1|exact En2].
Qed.

Lemma handle_all_adv from l : forall vs s s', WF s -> (cl = false -> forall i, env_has is_close (vs i) = false) ->
  handle_all c from l vs s = Ok s' -> Adv s s'.
Proof.
  induction l as [|o l IH]; intros vs s s' H Hc E; cbn in E; [injection E as <-; apply adv_refl; assumption|].
  destruct o as [h ies|e|e|u].
  - inv_bind E. match goal with Hr : handle_rx c s from h ies _ = Ok ?x |- _ => rename Hr into E1; rename x into s1 end.
    assert (A : Adv s s1) by (eapply handle_rx_adv; [exact H| |exact E1]; auto).
    eapply adv_trans; [exact A|]. eapply IH; [exact (adv_wf _ _ A)| |exact E]. intros C i. exact (Hc C (S i)).
  - eapply IH; [exact H| |exact E]. intros C i. exact (Hc C (S i)).
  - injection E as <-. apply adv_refl. assumption.
  - discriminate.
Qed.

(* may the timers of state [s] be handled in event [ev] *)
Definition timers_ok (s : ep) : Prop := forall q, In q (e_reqs s ++ e_resps s) -> q_dl q <= e_now s -> D (q_dl q) (e_now s).

Lemma step_adv s ev s' : WF s -> (cl = false -> event_free is_close ev) -> timers_ok s -> step c s ev = Ok s' -> Adv s s'.
Proof.
  intros H Hc HD E. destruct ev as [a|from d vs|dt|id snd k]; cbn [step event_free] in *.
  - apply adv_fr. eapply run_call_fr; [exact Hc|exact H|exact E].
  - dif_in E Eo; [|injection E as <-; apply adv_refl; assumption]. eapply handle_all_adv; [exact H|exact Hc|exact E].
  - injection E as <-. destruct H as [H1 H2 H3 H4 H5]. constructor; try reflexivity; try (cbn; lia).
    + constructor; assumption.
    + intros i m p Hi Hp. exists p. split; [constructor|exact Hp].
  - destruct (find_id id (e_reqs s)) as [q|] eqn:F1; [|destruct (find_id id (e_resps s)) as [q|] eqn:F2].
    + apply find_id_some in F1. destruct F1 as [F1 _]. dif_in E Ed; [|injection E as <-; apply adv_refl; assumption].
      eapply req_timer_adv; [exact H|exact F1| |exact Hc|exact E]. apply HD; [apply in_app_iff; tauto|lia].
    + apply find_id_some in F2. destruct F2 as [F2 _]. dif_in E Ed; [|injection E as <-; apply adv_refl; assumption].
      eapply resp_timer_adv; [exact H|exact F2| |exact E]. apply HD; [apply in_app_iff; tauto|lia].
    + injection E as <-. apply adv_refl. assumption.
Qed.
End Run.
