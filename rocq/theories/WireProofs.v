(* WireProofs.v -- proofs about what endpoints send and deliver *)
From Verif Require Import Base BaseProofs GtlvModel DecEncModel IesModel IesProofs TablesModel MsgModel MsgSpec MsgProofs MsgEncProofs RxProofs RxFullProofs EndpointModel EndpointSpec
  EndpointProofs EndpointRun EndpointLife EndpointFinal EndpointProps EndpointExt EndpointProps2 EndpointProps3 NetFinal AcceptSpec AcceptProofs ErrnoSpec ReadSpec ReadProofs RelaySpec RelayProofs PutSpec PutProofs PutMeanProofs WireSpec.

Lemma ok_inj {A} (x y : A) : Ok x = Ok y -> y = x.
Proof. intros H. injection H as ->. reflexivity. Qed.
(* ---------------------------------------------------------------- every trace entry has a cause *)
Section Grow.
Variables (c : ep_cfg) (recov : N) (Q : out -> Prop) (M : call -> Prop).
Definition gr (s s' : ep) : Prop := e_recov s' = e_recov s /\ exists new, e_trace s' = new ++ e_trace s /\ (e_recov s = recov -> Forall Q new).
Lemma gr_refl s : gr s s.
Proof. split; [reflexivity|]. exists []. split; [reflexivity|]. constructor. Qed.
Lemma gr_trans s1 s2 s3 : gr s1 s2 -> gr s2 s3 -> gr s1 s3.
Proof.
  intros [R1 (n1 & A1 & B1)] [R2 (n2 & A2 & B2)]. split; [congruence|]. exists (n2 ++ n1). split; [rewrite A2, A1; apply app_assoc|].
  intros H. apply Forall_app. split; [apply B2; congruence|exact (B1 H)].
Qed.
Lemma gr_log' s o : (e_recov s = recov -> Q o) -> gr s (log o s).
Proof. intros H. split; [reflexivity|]. exists [o]. split; [reflexivity|]. intros E. constructor; [exact (H E)|constructor]. Qed.
Lemma gr_log s o : Q o -> gr s (log o s).
Proof. intros H. apply gr_log'. auto. Qed.
Lemma gr_same s s' : e_trace s' = e_trace s -> e_recov s' = e_recov s -> gr s s'.
Proof. intros A B. split; [assumption|]. exists []. split; [assumption|constructor]. Qed.

Hypothesis Q_plain : forall o, match o with OSend (Some _) _ _ _ | OSendErr _ | OResp _ None | OFree _ | ORet _ _ => True | OSeq _ n => 1 <= n < 2 ^ 24 | _ => False end -> Q o.
Hypothesis M_nest : forall to h ies has_cb snd k x, M (CTx to h ies has_cb snd k) -> In x k -> M x.
Hypothesis Q_tx : forall id to h ies cb snd k, M (CTx to h ies cb snd k) -> Q (OTx id to h ies cb).
Hypothesis Q_data : forall t to h ies snd bs, M (CTxData to h ies snd) -> encode_msg h ies = Ok bs -> Q (OSend None t to bs).
Hypothesis Q_hb : forall t to snd nr, M (CHeartbeat to snd) -> 1 <= nr < 2 ^ 24 -> Q (OSend None t to (hb_req_bytes nr recov)).

Lemma send_gr s id to bs snd : (e_recov s = recov -> Q (OSend id (e_now s) to bs)) -> gr s (fst (send_data s id to bs snd)).
Proof. intros H. unfold send_data. destruct (e_open s && snd); [apply gr_log'; exact H|apply gr_log; apply Q_plain; exact I]. Qed.
Lemma send_some_gr s i to bs snd : gr s (fst (send_data s (Some i) to bs snd)).
Proof. apply send_gr. intros _. apply Q_plain. exact I. Qed.
Lemma tx_data_gr s to h ies snd s' : (forall bs, encode_msg h ies = Ok bs -> e_recov s = recov -> Q (OSend None (e_now s) to bs)) ->
  tx_data s to h ies snd = Ok s' -> gr s s'.
Proof.
  intros H. unfold tx_data. destruct (encode_msg h ies) as [bs|e|u]; intros E; try discriminate; injection E as <-.
  - apply send_gr. apply H. reflexivity.
  - apply gr_log. apply Q_plain. exact I.
Qed.
Lemma draw_gr s id : gr s (log (OSeq id (next_seq_nr (e_seq s))) (set_seq (next_seq_nr (e_seq s)) s)).
Proof.
  eapply gr_trans; [apply gr_same with (s' := set_seq (next_seq_nr (e_seq s)) s); reflexivity|]. apply gr_log. apply Q_plain.
  apply (ctr_range (2 ^ 24) eq_refl next_seq_nr next_seq_nr_eq).
Qed.
Lemma heartbeat_gr s to snd s' : M (CHeartbeat to snd) -> tx_heartbeat_req s to snd = Ok s' -> gr s s'.
Proof.
  intros HM. unfold tx_heartbeat_req. cbv zeta. set (s1 := log _ _). intros E. eapply gr_trans with (s2 := s1); [apply draw_gr|].
  eapply tx_data_gr; [|exact E]. intros bs Hb Hr. change msgt_heartbeat_req with 1 in Hb. rewrite hb_enc in Hb by (left; reflexivity). apply ok_inj in Hb. rewrite Hb, Hr.
  eapply Q_hb; [exact HM|]. apply (ctr_range (2 ^ 24) eq_refl next_seq_nr next_seq_nr_eq).
Qed.
Lemma fail_gr (b : bool) cb s s' o : (forall s s', cb s = Ok s' -> gr s s') -> Q o -> (if b then cb (log o s) else Ok s) = Ok s' -> gr s s'.
Proof. intros H Ho. destruct b; [|intros [= <-]; apply gr_refl]. intros E. eapply gr_trans; [apply gr_log; exact Ho|apply H; exact E]. Qed.
Lemma ep_tx_gr cb s to h ies has_cb snd s' : (forall s s', cb s = Ok s' -> gr s s') -> (forall id, Q (OTx id to h ies has_cb)) ->
  ep_tx c cb s to h ies has_cb snd = Ok s' -> gr s s'.
Proof.
  intros H G. unfold ep_tx. cbv zeta. set (s1 := log (OTx (e_next s) to h ies has_cb) (set_next (e_next s + 1) s)).
  assert (H1 : gr s s1). { eapply gr_trans; [apply gr_same with (s' := set_next (e_next s + 1) s); reflexivity|]. apply gr_log. apply G. }
  set (s2 := if is_response (hd_type h) then s1 else _).
  assert (H2 : gr s s2). { unfold s2. destruct (is_response (hd_type h)); [exact H1|]. eapply gr_trans; [exact H1|]. apply draw_gr. }
  match goal with |- context [encode_msg ?h1 ?i1] => destruct (encode_msg h1 i1) as [bs|e|u] eqn:En end; [| |discriminate].
  - pose proof (send_some_gr s2 (e_next s) to bs snd) as Hs. destruct (send_data s2 _ _ _ _) as [s3 [|]]; cbn [fst] in Hs; intros E; inv_bind E; injection E as <-;
      (eapply gr_trans; [exact H2|]; eapply gr_trans; [exact Hs|]).
    + match goal with Hq : queue_add _ _ _ _ _ _ _ _ = Ok _ |- _ => unfold queue_add in Hq; dif_in Hq Ez end.
      * eapply gr_trans; [eapply fail_gr; [exact H| |eassumption]; apply Q_plain; exact I|]. apply gr_log. apply Q_plain. exact I.
      * match goal with Hq : Ok _ = Ok _ |- _ => injection Hq as <- end. eapply gr_trans; [|apply gr_log; apply Q_plain; exact I].
        apply gr_same; destruct (is_response _); reflexivity.
    + eapply gr_trans; [eapply fail_gr; [exact H| |eassumption]; apply Q_plain; exact I|].
      eapply gr_trans; apply gr_log; apply Q_plain; exact I.
  - intros E. inv_bind E. injection E as <-. eapply gr_trans; [exact H2|].
    eapply gr_trans; [|eapply gr_trans; [eapply fail_gr; [exact H| |eassumption]; apply Q_plain; exact I|]].
    + apply gr_log. apply Q_plain. exact I.
    + eapply gr_trans; apply gr_log; apply Q_plain; exact I.
Qed.
Lemma run_calls_gr_list k : Forall (fun a => forall s s', M a -> run_call c a s = Ok s' -> gr s s') k ->
  forall s s', (forall x, In x k -> M x) -> run_calls c k s = Ok s' -> gr s s'.
Proof.
  induction k as [|a k IH]; intros Hk s s' Hg E; cbn in E; [injection E as <-; apply gr_refl|].
  inversion Hk as [|? ? Ha Hk']; subst. inv_bind E.
  eapply gr_trans; [eapply Ha; [apply Hg; left; reflexivity|eassumption]|eapply IH; [exact Hk'| |eassumption]]. intros y Hy. apply Hg. right. exact Hy.
Qed.
Lemma gr_close s b : gr s (set_open b (ep_close s)).
Proof.
  split; [reflexivity|]. exists (rev (map (fun q => OFree (q_id q)) (e_reqs s ++ e_resps s))). split; [reflexivity|]. intros _.
  apply Forall_rev. rewrite Forall_map. apply Forall_forall. intros q _. apply Q_plain. exact I.
Qed.
Lemma run_call_gr a : forall s s', M a -> run_call c a s = Ok s' -> gr s s'.
Proof.
  induction a as [to h ies has_cb snd k IH|to h ies snd|to snd|n| |ok] using call_ind'; intros s s' Hg E.
  - rewrite run_call_tx in E. eapply ep_tx_gr; [| |exact E].
    + intros s1 s2 E1. eapply run_calls_gr_list; [exact IH| |exact E1]. intros x Hx. eapply M_nest; [exact Hg|exact Hx].
    + intros id. eapply Q_tx. exact Hg.
  - eapply tx_data_gr; [|exact E]. intros bs Hb _. eapply Q_data; [exact Hg|exact Hb].
  - eapply heartbeat_gr; [exact Hg|exact E].
  - injection E as <-. apply gr_same; reflexivity.
  - injection E as <-. exact (gr_close s false).
  - injection E as <-. exact (gr_close s ok).
Qed.
Lemma run_calls_gr k s s' : (forall x, In x k -> M x) -> run_calls c k s = Ok s' -> gr s s'.
Proof. apply run_calls_gr_list. apply Forall_forall. intros a _. apply run_call_gr. Qed.
Lemma calls_gr k o s s' : (forall x, In x k -> M x) -> Q o -> run_calls c k (log o s) = Ok s' -> gr s s'.
Proof. intros Hk Ho E. eapply gr_trans; [apply gr_log; exact Ho|]. eapply run_calls_gr; eassumption. Qed.
Lemma del_req_gr id s s' : queue_del_req id s = Ok s' -> gr s s'.
Proof.
  unfold queue_del_req. dif Eh; [|discriminate]. intros [= <-]. eapply gr_trans; [|apply gr_log; apply Q_plain; exact I]. apply gr_same; reflexivity.
Qed.
Definition M_env (v : env) : Prop := forall x, In x (v_ctx v ++ v_resp v ++ v_rx v) -> M x.

Variable R : sa -> hdr -> list (slot iev) -> Prop.
Hypothesis Q_disp : forall from h ies r, R from h ies -> Q (ODispatch from h ies r).
Hypothesis Q_resp : forall from h ies id, R from h ies -> Q (OResp id (Some (h, ies))).
Hypothesis Q_hbresp : forall from h ies t, R from h ies -> hd_type h = 1 -> Q (OSend None t from (hb_resp_bytes (hd_seq h) recov)).
Lemma handle_rx_gr from h ies s v s' : R from h ies -> M_env v -> handle_rx c s from h ies v = Ok s' -> gr s s'.
Proof.
  intros HR HM E. unfold handle_rx in E. inv_bind E. rename x into s1.
  assert (F1 : forall x, In x (v_ctx v) -> M x) by (intros x Hx; apply HM; rewrite !in_app_iff; tauto).
  assert (F2 : forall x, In x (v_resp v) -> M x) by (intros x Hx; apply HM; rewrite !in_app_iff; tauto).
  assert (F3 : forall x, In x (v_rx v) -> M x) by (intros x Hx; apply HM; rewrite !in_app_iff; tauto).
  eapply gr_trans with (s2 := s1).
  { match goal with Hs : _ = Ok s1 |- _ => dif_in Hs Eh; [|injection Hs as <-; apply gr_refl]; eapply tx_data_gr; [|exact Hs] end.
    intros bs Hb Hr. change msgt_heartbeat_resp with 2 in Hb. rewrite hb_enc in Hb by (right; reflexivity). apply ok_inj in Hb. rewrite Hb, Hr.
    eapply Q_hbresp; [exact HR|]. apply N.eqb_eq in Eh. exact Eh. }
  destruct (queue_find _ h) as [q|]; inv_bind E; (eapply gr_trans; [eapply run_calls_gr; [exact F1|eassumption]|]).
  - dif_in E Ri.
    + dif_in E Hh; [|discriminate]. injection E as <-. apply send_some_gr.
    + dif_in E Hh; [discriminate|]. inv_bind E. inv_bind E.
      match goal with Ha : (if q_cb q then _ else _) = Ok ?x, Hb : (if negb (q_cb q) || _ then _ else _) = Ok ?y |- _ =>
        eapply gr_trans with (s2 := x); [dif_in Ha Ec; [eapply calls_gr; [exact F2| |exact Ha]; eapply Q_resp; exact HR|injection Ha as <-; apply gr_refl]|];
        eapply gr_trans with (s2 := y); [dif_in Hb Ed; [eapply calls_gr; [exact F3| |exact Hb]; apply Q_disp; exact HR|injection Hb as <-; apply gr_refl]|] end.
      eapply del_req_gr. exact E.
  - eapply calls_gr; [exact F3| |exact E]. apply Q_disp. exact HR.
Qed.
Lemma handle_all_gr from l : forall vs s s', (forall h ies, In (RxMsg h ies) l -> R from h ies) -> (forall i, M_env (vs i)) ->
  handle_all c from l vs s = Ok s' -> gr s s'.
Proof.
  induction l as [|o l IH]; intros vs s s' HR Hv E; cbn in E; [injection E as <-; apply gr_refl|].
  destruct o as [h ies|e|e|u]; [|eapply IH; [| |exact E]; intros; [apply HR; right; assumption|apply Hv]|injection E as <-; apply gr_refl|discriminate].
  inv_bind E. assert (Hr : R from h ies) by (apply HR; left; reflexivity).
  eapply gr_trans; [eapply handle_rx_gr; [exact Hr|apply (Hv 0%nat)|eassumption]|].
  eapply IH; [| |exact E]; intros; [apply HR; right; assumption|apply Hv].
Qed.
End Grow.

(* what the entries that event [ev] adds say about it *)
Definition explained (recov : N) (ev : event) (o : out) : Prop :=
  match o with
  | OTx _ to h ies cb => exists snd k, event_makes ev (CTx to h ies cb snd k)
  | OSend None _ to bs =>
      (exists h ies snd, event_makes ev (CTxData to h ies snd) /\ encode_msg h ies = Ok bs)
      \/ (exists snd nr, event_makes ev (CHeartbeat to snd) /\ 1 <= nr < 2 ^ 24 /\ bs = hb_req_bytes nr recov)
      \/ (exists d vs h ies, ev = ERx to d vs /\ In (RxMsg h ies) (rx_datagram d) /\ hd_type h = 1 /\ bs = hb_resp_bytes (hd_seq h) recov)
  | ODispatch from h ies _ => exists d vs, ev = ERx from d vs /\ In (RxMsg h ies) (rx_datagram d)
  | OResp _ (Some (h, ies)) => exists from d vs, ev = ERx from d vs /\ In (RxMsg h ies) (rx_datagram d)
  | OSeq _ n => 1 <= n < 2 ^ 24
  | _ => True
  end.
Lemma event_makes_nest ev to h ies has_cb snd k x : event_makes ev (CTx to h ies has_cb snd k) -> In x k -> event_makes ev x.
Proof.
  assert (G : forall a, makes a (CTx to h ies has_cb snd k) -> In x k -> makes a x).
  { intros a H Hx. remember (CTx to h ies has_cb snd k) as b eqn:Eb. induction H as [a|? ? ? ? ? ? y b Hy H IH].
    - subst a. eapply M_nested; [exact Hx|constructor].
    - eapply M_nested; [exact Hy|]. apply IH. exact Eb. }
  destruct ev as [a|f d vs|dt|id sn kk]; cbn; [apply G| |auto|].
  - intros (i & a & Ha & H) Hx. exists i, a. split; [exact Ha|]. apply G; assumption.
  - intros (a & Ha & H) Hx. exists a. split; [exact Ha|]. apply G; assumption.
Qed.
Lemma step_explained c s ev s' : step c s ev = Ok s' -> gr (e_recov s) (explained (e_recov s) ev) s s'.
Proof.
  intros E.
  assert (X1 : forall o, match o with OSend (Some _) _ _ _ | OSendErr _ | OResp _ None | OFree _ | ORet _ _ => True | OSeq _ n => 1 <= n < 2 ^ 24 | _ => False end -> explained (e_recov s) ev o).
  { intros [ | |[|]| |? [|]| | | |]; cbn; tauto. }
  assert (RC : forall k s1 s2, (forall x, In x k -> event_makes ev x) -> run_calls c k s1 = Ok s2 -> gr (e_recov s) (explained (e_recov s) ev) s1 s2).
  { intros k s1 s2 Hk E'. apply (run_calls_gr c (e_recov s) (explained (e_recov s) ev) (event_makes ev)) with (k := k); try assumption.
    - intros to h ies has_cb snd k0 x. apply event_makes_nest.
    - intros id to h ies cb snd k0 H. exists snd, k0. exact H.
    - intros t to h ies snd bs H1 H2. left. exists h, ies, snd. auto.
    - intros t to snd nr H1 H2. right. left. exists snd, nr. auto. }
  destruct ev as [a|from d vs|dt|id snd k]; cbn [step] in *.
  - apply (RC [a] s s'); [|cbn; rewrite E; reflexivity]. intros x [<-|[]]. constructor.
  - dif_in E Eo; [|injection E as <-; apply gr_refl].
    apply (handle_all_gr c (e_recov s) (explained (e_recov s) (ERx from d vs)) (event_makes (ERx from d vs)) X1) with (R := fun f h ies => f = from /\ In (RxMsg h ies) (rx_datagram d)) (from := from) (l := rx_datagram d) (vs := vs); try assumption.
    + intros to h ies has_cb snd k0 x. apply event_makes_nest.
    + intros id to h ies cb snd k0 H. exists snd, k0. exact H.
    + intros t to h ies snd bs H1 H2. left. exists h, ies, snd. auto.
    + intros t to snd nr H1 H2. right. left. exists snd, nr. auto.
    + intros f h ies r [-> H]. exists d, vs. auto.
    + intros f h ies i [-> H]. exists from, d, vs. auto.
    + intros f h ies t [-> H] Ht. right. right. exists d, vs, h, ies. auto.
    + auto.
    + intros i x Hx. cbn. exists i, x. split; [exact Hx|constructor].
  - injection E as <-. apply gr_same; reflexivity.
  - assert (Hk : forall x, In x k -> event_makes (ETimer id snd k) x) by (intros x Hx; exists x; split; [exact Hx|constructor]).
    assert (L : forall o s1, match o with OSend (Some _) _ _ _ | OSendErr _ | OResp _ None | OFree _ | ORet _ _ | OTimer _ _ => True | _ => False end -> gr (e_recov s) (explained (e_recov s) (ETimer id snd k)) s1 (log o s1)).
    { intros o s1 Ho. apply gr_log. destruct o as [ | |[|]| |? [|]| | | |]; try destruct Ho; exact I. }
    destruct (find_id id (e_reqs s)) as [q|]; [|destruct (find_id id (e_resps s)) as [q|]]; [| |injection E as <-; apply gr_refl].
    + dif_in E Ed; [|injection E as <-; apply gr_refl]. unfold req_timer in E. cbv zeta in E.
      eapply gr_trans; [apply (L (OTimer (q_id q) (e_now s)) s I)|].
      assert (DROP : forall s2 s3, bind (if q_cb q then run_calls c k (log (OResp (q_id q) None) s2) else Ok s2) (queue_del_req (q_id q)) = Ok s3 ->
        gr (e_recov s) (explained (e_recov s) (ETimer id snd k)) s2 s3).
      { intros s2 s3 X. inv_bind X. eapply gr_trans.
        - match goal with Ha : (if q_cb q then _ else _) = Ok _ |- _ => dif_in Ha Ec; [eapply gr_trans; [apply (L (OResp (q_id q) None)); exact I|eapply RC; [exact Hk|exact Ha]]|injection Ha as <-; apply gr_refl] end.
        - unfold queue_del_req in X. dif_in X Eh; [|discriminate]. injection X as <-. eapply gr_trans; [|apply (L (OFree (q_id q))); exact I]. apply gr_same; reflexivity. }
      dif_in E E0; [exact (DROP _ _ E)|].
      match type of E with context [send_data ?a (Some ?b) ?d ?e ?f] =>
        assert (Hs : gr (e_recov s) (explained (e_recov s) (ETimer id snd k)) a (fst (send_data a (Some b) d e f)))
          by (unfold send_data; destruct (e_open a && f); apply L; exact I);
        destruct (send_data a (Some b) d e f) as [s2 [|]] end; cbn [fst] in Hs.
      * injection E as <-. eapply gr_trans; [exact Hs|]. apply gr_same; reflexivity.
      * eapply gr_trans; [exact Hs|]. exact (DROP _ _ E).
    + dif_in E Ed; [|injection E as <-; apply gr_refl]. unfold resp_timer, queue_del_resp in E. dif_in E Eh; [|discriminate]. injection E as <-.
      eapply gr_trans; [apply (L (OTimer (q_id q) (e_now s)) s I)|].
      eapply gr_trans; [|apply (L (OFree (q_id q))); exact I]. apply gr_same; reflexivity.
Qed.
Lemma run_explained c evs : forall s s' o, run c s evs = Ok s' -> In o (e_trace s') -> In o (e_trace s) \/ exists ev, In ev evs /\ explained (e_recov s) ev o.
Proof.
  induction evs as [|ev evs IH]; intros s s' o E H; cbn in E; [injection E as <-; left; exact H|]. inv_bind E.
  match goal with Hs : step c s ev = Ok ?x |- _ => destruct (step_explained _ _ _ _ Hs) as [R (new & A & B)]; destruct (IH x s' o E H) as [H1|(ev1 & H1 & H2)] end.
  - rewrite A in H1. apply in_app_iff in H1. destruct H1 as [H1|H1]; [|left; exact H1]. right. exists ev. split; [left; reflexivity|].
    specialize (B eq_refl). rewrite Forall_forall in B. exact (B _ H1).
  - right. exists ev1. split; [right; exact H1|]. rewrite R in H2. exact H2.
Qed.

(* ---------------------------------------------------------------- meaning *)
Lemma received_means d h ies : bytes_ok d -> In (RxMsg h ies) (rx_datagram d) -> exists p, message_in d p /\ message_means p (RxMsg h ies) /\ valid_hdr h.
Proof.
  intros Hb Hin. destruct (rx_datagram_delivered d h ies Hb Hin) as (a & p & b & E & Hf & Ho).
  assert (Hp : bytes_ok p).
  { pose proof (bytes_ok_takeN alloc_size d Hb) as H. rewrite E in H. apply bytes_ok_app in H. destruct H as [_ H]. apply bytes_ok_app in H. apply H. }
  exists p. split; [exists a, b; auto|]. split; [apply message_means_iff; assumption|]. apply (outcome_valid p h ies Hf Hp Ho).
Qed.
Lemma encode_means h ies bs : sendable h ies -> encode_msg h ies = Ok bs -> means bs h ies.
Proof.
  intros (l & Hin & Hh & Hv & Hs) E. unfold encode_msg in E.
  destruct (sent_means (msgb_new alloc_size) h l ies Hin Hh Hv) as (m' & p & A & B & C & D & F).
  - unfold header_size in *. destruct (hd_seid h); lia.
  - cbn [mb_buf mb_cap msgb_new]. unfold lenN at 1. cbn [length]. change (N.of_nat 0) with 0. unfold alloc_size. lia.
  - rewrite A in E. apply ok_inj in E. rewrite B in E. cbn in E. subst bs. split; [exact C|]. split; [exact D|exact F].
Qed.
Lemma hb_sendable t nr r : t = 1 \/ t = 2 -> nr < 2 ^ 24 -> r < 2 ^ 32 -> sendable (mkHdr 1 t None None nr) [[VLeaf (IvNum r)]].
Proof.
  intros Ht Hn Hr. exists [Ie 96 Once K32]. split; [destruct Ht as [-> | ->]; vm_compute; tauto|]. split; [|split].
  - repeat split; [destruct Ht as [-> | ->]; reflexivity|exact Hn].
  - unfold valid_body. cbn [valid_slots]. split; [reflexivity|]. split; [|exact I]. constructor; [exact Hr|constructor].
  - vm_compute. discriminate.
Qed.
(* the Node ID, if a message has one, is its first IE *)
Definition node_ok (x : N * list ie) : bool :=
  match memb_ofs iei_node_id (fst x), snd x with
  | Some O, q :: l => (iei_of q =? 60) && forallb (fun q => negb (iei_of q =? 60)) l
  | None, l => forallb (fun q => negb (iei_of q =? 60)) l
  | _, _ => false
  end.
Lemma node_ok_all : forallb node_ok s_messages = true.
Proof. vm_compute. reflexivity. Qed.
Lemma with_node_none node l : forallb (fun q => negb (iei_of q =? 60)) l = true -> forall ies, with_node node l ies = ies.
Proof.
  induction l as [|q l IH]; intros H ies; [reflexivity|]. cbn [forallb] in H. apply andb_prop in H. destruct H as [H1 H2]. destruct ies as [|s ies]; [reflexivity|].
  cbn [with_node]. destruct (iei_of q =? 60); [discriminate|]. rewrite IH by exact H2. reflexivity.
Qed.
Lemma put_with_node node t l ies : In (t, l) s_messages -> put_node_id node t ies = with_node node l ies.
Proof.
  intros Hin. pose proof (proj1 (forallb_forall _ _) node_ok_all _ Hin) as H. unfold node_ok in H. cbn [fst snd] in H. unfold put_node_id.
  destruct (memb_ofs iei_node_id t) as [[|n]|]; [| discriminate |rewrite with_node_none by exact H; reflexivity].
  destruct l as [|q l]; [discriminate|]. apply andb_prop in H. destruct H as [H1 H2]. destruct ies as [|s ies]; [reflexivity|].
  cbn [set_nth with_node]. rewrite H1, with_node_none by exact H2. reflexivity.
Qed.

Theorem wire_dispatched c time evs s from h ies r : run c (ep_create time) evs = Ok s -> octets_only evs -> In (ODispatch from h ies r) (e_trace s) ->
  exists d vs p, In (ERx from d vs) evs /\ message_in d p /\ message_means p (RxMsg h ies).
Proof.
  intros E Ho H. destruct (run_explained _ _ _ _ _ E H) as [[]|(ev & Hev & d & vs & -> & Hin)].
  unfold octets_only in Ho. rewrite Forall_forall in Ho. pose proof (Ho _ Hev) as Hb. cbn in Hb.
  destruct (received_means d h ies Hb Hin) as (p & A & B & _). exists d, vs, p. auto.
Qed.
Theorem wire_response c time evs s id h ies : run c (ep_create time) evs = Ok s -> octets_only evs -> In (OResp id (Some (h, ies))) (e_trace s) ->
  exists from d vs p, In (ERx from d vs) evs /\ message_in d p /\ message_means p (RxMsg h ies).
Proof.
  intros E Ho H. destruct (run_explained _ _ _ _ _ E H) as [[]|(ev & Hev & from & d & vs & -> & Hin)].
  unfold octets_only in Ho. rewrite Forall_forall in Ho. pose proof (Ho _ Hev) as Hb. cbn in Hb.
  destruct (received_means d h ies Hb Hin) as (p & A & B & _). exists from, d, vs, p. auto.
Qed.
Theorem wire_sent_message c time evs s id t to bs : run c (ep_create time) evs = Ok s -> In (OSend (Some id) t to bs) (e_trace s) ->
  exists h ies cb snd k ev nr, In ev evs /\ event_makes ev (CTx to h ies cb snd k) /\ In (OTx id to h ies cb) (e_trace s)
    /\ (if is_response (hd_type h) then nr = hd_seq h else In (OSeq (Some id) nr) (e_trace s) /\ 1 <= nr < 2 ^ 24)
    /\ forall l, In (hd_type h, l) s_messages ->
         let m := mkHdr (hd_version h) (hd_type h) (hd_prio h) (hd_seid h) nr in
         sendable m (with_node (c_node c) l ies) -> means bs m (with_node (c_node c) l ies).
Proof.
  intros E H. assert (Re : reachable c s) by (exists time, evs; exact E).
  assert (Hid : id < e_next s) by (eapply wf_about; [eapply reach_wf; exact Re|exact H|cbn; apply N.eqb_refl]).
  destruct (reach_known c s id Re Hid) as (m & p & K). pose proof (li_txin _ _ _ _ _ _ _ (kn_inv _ _ _ _ _ _ _ K)) as Hx.
  apply (in_tr_of id (OTx id (mi_to m) (mi_h m) (mi_ies m) (mi_cb m)) (e_trace s) (N.eqb_refl _)) in Hx.
  destruct (what_is_sent c s id _ _ _ _ _ _ _ Re Hx H) as (-> & nr & En & Hnr).
  destruct (run_explained _ _ _ _ _ E Hx) as [[]|(ev & Hev & snd & k & Hm)].
  exists (mi_h m), (mi_ies m), (mi_cb m), snd, k, ev, nr. split; [exact Hev|]. split; [exact Hm|]. split; [exact Hx|]. split.
  - destruct (is_response (hd_type (mi_h m))); [exact Hnr|]. split; [exact Hnr|]. destruct (run_explained _ _ _ _ _ E Hnr) as [[]|(ev' & _ & X)]. exact X.
  - intros l Hl m0 Hs. apply encode_means; [exact Hs|]. rewrite <- (put_with_node _ _ _ _ Hl). exact En.
Qed.
Theorem wire_sent_unqueued c time evs s t to bs : run c (ep_create time) evs = Ok s -> octets_only evs -> In (OSend None t to bs) (e_trace s) ->
  let recov := (25567 * 86400 + time) mod 2 ^ 32 in
  exists ev, In ev evs /\
  ((exists h ies snd, event_makes ev (CTxData to h ies snd) /\ (sendable h ies -> means bs h ies))
   \/ (exists snd nr, event_makes ev (CHeartbeat to snd) /\ 1 <= nr < 2 ^ 24 /\ means bs (mkHdr 1 1 None None nr) [[VLeaf (IvNum recov)]])
   \/ (exists d vs p h ies, ev = ERx to d vs /\ message_in d p /\ message_means p (RxMsg h ies) /\ hd_type h = 1
        /\ means bs (mkHdr 1 2 None None (hd_seq h)) [[VLeaf (IvNum recov)]])).
Proof.
  intros E Ho H recov. destruct (run_explained _ _ _ _ _ E H) as [[]|(ev & Hev & X)]. exists ev. split; [exact Hev|].
  assert (Er : e_recov (ep_create time) = recov) by exact (recovery_time c time [] _ eq_refl).
  assert (Hr : recov < 2 ^ 32) by (apply N.mod_lt; discriminate). rewrite Er in X.
  destruct X as [(h & ies & snd & A & B)|[(snd & nr & A & B & C)|(d & vs & h & ies & -> & A & B & C)]].
  - left. exists h, ies, snd. split; [exact A|]. intros S. apply encode_means; assumption.
  - right. left. exists snd, nr. split; [exact A|]. split; [exact B|]. rewrite C. apply encode_means; [apply hb_sendable; [left; reflexivity|lia|exact Hr]|]. apply hb_enc. left. reflexivity.
  - right. right. unfold octets_only in Ho. rewrite Forall_forall in Ho. pose proof (Ho _ Hev) as Hb. cbn in Hb.
    destruct (received_means d h ies Hb A) as (p & P1 & P2 & P3). exists d, vs, p, h, ies. split; [reflexivity|]. split; [exact P1|]. split; [exact P2|]. split; [exact B|].
    rewrite C. apply encode_means; [apply hb_sendable; [right; reflexivity|apply P3|exact Hr]|]. apply hb_enc. right. reflexivity.
Qed.
