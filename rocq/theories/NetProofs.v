(* NetProofs.v -- what each entry of an endpoint's trace says about what was received *)
From Verif Require Import Base BaseProofs GtlvModel DecEncModel IesModel IesProofs TablesModel MsgModel MsgSpec MsgEncProofs RxProofs
  EndpointModel EndpointSpec EndpointProofs EndpointRun EndpointLife EndpointFinal EndpointProps EndpointExt EndpointProps2 EndpointProps3 NetModel.

(* ---------------------------------------------------------------- trace entries *)
Section Grow.
Variables (c : ep_cfg) (now : N) (P : out -> list out -> Prop).

Fixpoint chain (new b : list out) : Prop := match new with [] => True | o :: new' => P o (new' ++ b) /\ chain new' b end.
Lemma chain_app n2 n1 b : chain n2 (n1 ++ b) -> chain n1 b -> chain (n2 ++ n1) b.
Proof. induction n2 as [|o n2 IH]; cbn; [auto|]. rewrite <- app_assoc. intros [A B] C. split; [exact A|exact (IH B C)]. Qed.
Definition grow (s s' : ep) : Prop := e_now s' = e_now s /\ exists new, e_trace s' = new ++ e_trace s /\ (e_now s = now -> chain new (e_trace s)).
Lemma grow_refl s : grow s s.
Proof. split; [reflexivity|]. exists []. split; [reflexivity|intros _; exact I]. Qed.
Lemma grow_trans s1 s2 s3 : grow s1 s2 -> grow s2 s3 -> grow s1 s3.
Proof.
  intros [R1 (n1 & A1 & B1)] [R2 (n2 & A2 & B2)]. split; [congruence|]. exists (n2 ++ n1). split; [rewrite A2, A1; apply app_assoc|].
  intros Hn. apply chain_app; [rewrite <- A1; apply B2; congruence|exact (B1 Hn)].
Qed.
Lemma grow_log' s o : (e_now s = now -> P o (e_trace s)) -> grow s (log o s).
Proof. intros H. split; [reflexivity|]. exists [o]. split; [reflexivity|]. intros Hn. split; [exact (H Hn)|exact I]. Qed.
Lemma grow_log s o : P o (e_trace s) -> grow s (log o s).
Proof. intros H. apply grow_log'. auto. Qed.
Lemma grow_same s s' : e_trace s' = e_trace s -> e_now s' = e_now s -> grow s s'.
Proof. intros A B. split; [assumption|]. exists []. split; [assumption|intros _; exact I]. Qed.

(* entries that are always fine *)
Hypothesis P_plain : forall o b, match o with OSend (Some _) t _ _ => t = now | OSendErr _ | OResp _ None | OFree _ | ORet _ _ | OTimer _ _ => True | OSeq _ n => 1 <= n < 2 ^ 24 | _ => False end -> P o b.
Hypothesis P_tx : forall id to h ies cb b, good_msg h (put_node_id (c_node c) (hd_type h) ies) -> P (OTx id to h ies cb) b.
Hypothesis P_hb : forall to nr b bs s, In (OSeq None nr) b -> encode_msg (mkHdr 1 msgt_heartbeat_req None None nr) [[VLeaf (IvNum (e_recov s))]] = Ok bs -> P (OSend None now to bs) b.

Lemma send_grow s id to bs snd : (e_now s = now -> P (OSend id now to bs) (e_trace s)) -> grow s (fst (send_data s id to bs snd)).
Proof. intros H. unfold send_data. destruct (e_open s && snd); [apply grow_log'; intros Hn; rewrite Hn; exact (H Hn)|apply grow_log; apply P_plain; exact I]. Qed.
Lemma send_some_grow s i to bs snd : grow s (fst (send_data s (Some i) to bs snd)).
Proof. apply send_grow. intros _. apply P_plain. reflexivity. Qed.
Lemma tx_data_grow s to h ies snd s' : (forall bs, encode_msg h ies = Ok bs -> P (OSend None now to bs) (e_trace s)) ->
  tx_data s to h ies snd = Ok s' -> grow s s'.
Proof.
  intros H. unfold tx_data. destruct (encode_msg h ies) as [bs|e|u]; intros E; try discriminate; injection E as <-.
  - apply send_grow. intros _. apply H. reflexivity.
  - apply grow_log. apply P_plain. exact I.
Qed.
Lemma draw_grow s id : grow s (log (OSeq id (next_seq_nr (e_seq s))) (set_seq (next_seq_nr (e_seq s)) s)).
Proof.
  eapply grow_trans; [apply grow_same with (s' := set_seq (next_seq_nr (e_seq s)) s); reflexivity|]. apply grow_log. apply P_plain.
  apply (ctr_range (2 ^ 24) eq_refl next_seq_nr next_seq_nr_eq).
Qed.
Lemma heartbeat_grow s to snd s' : tx_heartbeat_req s to snd = Ok s' -> grow s s'.
Proof.
  unfold tx_heartbeat_req. cbv zeta. set (s1 := log _ _). intros E. eapply grow_trans with (s2 := s1); [apply draw_grow|].
  eapply tx_data_grow; [|exact E]. intros bs Hb. eapply P_hb; [left; reflexivity|exact Hb].
Qed.
Lemma fail_grow (b : bool) cb s s' o : (forall s s', cb s = Ok s' -> grow s s') -> P o (e_trace s) ->
  (if b then cb (log o s) else Ok s) = Ok s' -> grow s s'.
Proof. intros H Ho. destruct b; [|intros [= <-]; apply grow_refl]. intros E. eapply grow_trans; [apply grow_log; exact Ho|apply H; exact E]. Qed.
Lemma ep_tx_grow cb s to h ies has_cb snd s' : (forall s s', cb s = Ok s' -> grow s s') -> good_msg h (put_node_id (c_node c) (hd_type h) ies) ->
  ep_tx c cb s to h ies has_cb snd = Ok s' -> grow s s'.
Proof.
  intros H G. unfold ep_tx. cbv zeta. set (s1 := log (OTx (e_next s) to h ies has_cb) (set_next (e_next s + 1) s)).
  assert (H1 : grow s s1). { eapply grow_trans; [apply grow_same with (s' := set_next (e_next s + 1) s); reflexivity|]. apply grow_log. apply P_tx. exact G. }
  set (s2 := if is_response (hd_type h) then s1 else _).
  assert (H2 : grow s s2). { unfold s2. destruct (is_response (hd_type h)); [exact H1|]. eapply grow_trans; [exact H1|]. apply draw_grow. }
  match goal with |- context [encode_msg ?h1 ?i1] => destruct (encode_msg h1 i1) as [bs|e|u] eqn:En end; [| |discriminate].
  - pose proof (send_some_grow s2 (e_next s) to bs snd) as Hs. destruct (send_data s2 _ _ _ _) as [s3 [|]]; cbn [fst] in Hs; intros E; inv_bind E; injection E as <-;
      (eapply grow_trans; [exact H2|]; eapply grow_trans; [exact Hs|]).
    + match goal with Hq : queue_add _ _ _ _ _ _ _ _ = Ok _ |- _ => unfold queue_add in Hq; dif_in Hq Ez end.
      * eapply grow_trans; [eapply fail_grow; [exact H| |eassumption]; apply P_plain; exact I|]. apply grow_log. apply P_plain. exact I.
      * match goal with Hq : Ok _ = Ok _ |- _ => injection Hq as <- end. eapply grow_trans; [|apply grow_log; apply P_plain; exact I].
        apply grow_same; destruct (is_response _); reflexivity.
    + eapply grow_trans; [eapply fail_grow; [exact H| |eassumption]; apply P_plain; exact I|].
      eapply grow_trans; apply grow_log; apply P_plain; exact I.
  - intros E. inv_bind E. injection E as <-. eapply grow_trans; [exact H2|].
    eapply grow_trans; [|eapply grow_trans; [eapply fail_grow; [exact H| |eassumption]; apply P_plain; exact I|]].
    + apply grow_log. apply P_plain. exact I.
    + eapply grow_trans; apply grow_log; apply P_plain; exact I.
Qed.
Lemma run_calls_grow_list k : Forall (fun a => forall s s', good_call c a -> run_call c a s = Ok s' -> grow s s') k ->
  forall s s', good_calls c k -> run_calls c k s = Ok s' -> grow s s'.
Proof.
  induction k as [|a k IH]; intros Hk s s' Hg E; cbn in E; [injection E as <-; apply grow_refl|].
  inversion Hk as [|? ? Ha Hk']; subst. inv_bind E. destruct Hg as [G1 G2]. eapply grow_trans; [eapply Ha; eassumption|eapply IH; eassumption].
Qed.
Lemma grow_close s b : grow s (set_open b (ep_close s)).
Proof.
  split; [reflexivity|]. exists (rev (map (fun q => OFree (q_id q)) (e_reqs s ++ e_resps s))). split; [reflexivity|]. intros _.
  assert (H : Forall (fun o => match o with OFree _ => True | _ => False end) (rev (map (fun q => OFree (q_id q)) (e_reqs s ++ e_resps s)))).
  { apply Forall_rev. rewrite Forall_map. apply Forall_forall. intros q _. exact I. }
  induction H as [|o l Ho H IH]; [exact I|]. split; [|exact IH]. apply P_plain. destruct o; tauto.
Qed.
Lemma run_call_grow a : forall s s', good_call c a -> run_call c a s = Ok s' -> grow s s'.
Proof.
  induction a as [to h ies has_cb snd k IH|to h ies snd|to snd|n| |ok] using call_ind'; intros s s' Hg E.
  - rewrite run_call_tx in E. destruct Hg as [G1 G2]. eapply ep_tx_grow; [|exact G1|exact E].
    intros s1 s2 E1. eapply run_calls_grow_list; [exact IH|exact G2|exact E1].
  - destruct Hg.
  - eapply heartbeat_grow; exact E.
  - injection E as <-. apply grow_same; reflexivity.
  - injection E as <-. exact (grow_close s false).
  - injection E as <-. exact (grow_close s ok).
Qed.
Lemma run_calls_grow k s s' : good_calls c k -> run_calls c k s = Ok s' -> grow s s'.
Proof. apply run_calls_grow_list. apply Forall_forall. intros a _. apply run_call_grow. Qed.

Lemma calls_grow k o s s' : good_calls c k -> P o (e_trace s) -> run_calls c k (log o s) = Ok s' -> grow s s'.
Proof. intros Hk Ho E. eapply grow_trans; [apply grow_log; exact Ho|]. eapply run_calls_grow; eassumption. Qed.
Lemma del_req_grow id s s' : queue_del_req id s = Ok s' -> grow s s'.
Proof.
  unfold queue_del_req. dif Eh; [|discriminate]. intros [= <-]. eapply grow_trans; [|apply grow_log; apply P_plain; exact I]. apply grow_same; reflexivity.
Qed.
Definition good_env (v : env) : Prop := good_calls c (v_ctx v) /\ good_calls c (v_resp v) /\ good_calls c (v_rx v).

Section Rx.
Variables (from : sa) (h : hdr) (ies : list (slot iev)).
Hypothesis P_disp : forall r b, P (ODispatch from h ies r) b.
Hypothesis P_resp : forall id b, P (OResp id (Some (h, ies))) b.
Hypothesis P_hbresp : forall bs b s, hd_type h = msgt_heartbeat_req ->
  encode_msg (mkHdr 1 msgt_heartbeat_resp None None (hd_seq h)) [[VLeaf (IvNum (e_recov s))]] = Ok bs -> P (OSend None now from bs) b.
Lemma handle_rx_grow s v s' : good_env v -> handle_rx c s from h ies v = Ok s' -> grow s s'.
Proof.
  intros (F1 & F2 & F3) E. unfold handle_rx in E. inv_bind E. rename x into s1.
  eapply grow_trans with (s2 := s1).
  { match goal with Hs : _ = Ok s1 |- _ => dif_in Hs Eh; [|injection Hs as <-; apply grow_refl]; eapply tx_data_grow; [|exact Hs] end.
    intros bs Hb. eapply P_hbresp; [apply N.eqb_eq; exact Eh|exact Hb]. }
  destruct (queue_find _ h) as [q|]; inv_bind E; (eapply grow_trans; [eapply run_calls_grow; [exact F1|eassumption]|]).
  - dif_in E R.
    + dif_in E Hh; [|discriminate]. injection E as <-. apply send_some_grow.
    + dif_in E Hh; [discriminate|]. inv_bind E. inv_bind E.
      match goal with Ha : (if q_cb q then _ else _) = Ok ?x, Hb : (if negb (q_cb q) || _ then _ else _) = Ok ?y |- _ =>
        eapply grow_trans with (s2 := x); [dif_in Ha Ec; [eapply calls_grow; [exact F2| |exact Ha]; apply P_resp|injection Ha as <-; apply grow_refl]|];
        eapply grow_trans with (s2 := y); [dif_in Hb Ed; [eapply calls_grow; [exact F3| |exact Hb]; apply P_disp|injection Hb as <-; apply grow_refl]|] end.
      eapply del_req_grow. exact E.
  - eapply calls_grow; [exact F3| |exact E]. apply P_disp.
Qed.
End Rx.

(* [R from h ies]: the message was received *)
Section Event.
Variable R : sa -> hdr -> list (slot iev) -> Prop.
Hypothesis P_disp : forall from h ies r b, R from h ies -> P (ODispatch from h ies r) b.
Hypothesis P_resp : forall from h ies id b, R from h ies -> P (OResp id (Some (h, ies))) b.
Hypothesis P_hbresp : forall from h ies bs b s, R from h ies -> hd_type h = msgt_heartbeat_req ->
  encode_msg (mkHdr 1 msgt_heartbeat_resp None None (hd_seq h)) [[VLeaf (IvNum (e_recov s))]] = Ok bs -> P (OSend None now from bs) b.
Lemma handle_all_grow from l : forall vs s s', (forall h ies, In (RxMsg h ies) l -> R from h ies) -> (forall i, good_env (vs i)) ->
  handle_all c from l vs s = Ok s' -> grow s s'.
Proof.
  induction l as [|o l IH]; intros vs s s' HR Hv E; cbn in E; [injection E as <-; apply grow_refl|].
  destruct o as [h ies|e|e|u]; [|eapply IH; [| |exact E]; intros; [apply HR; right; assumption|apply Hv]|injection E as <-; apply grow_refl|discriminate].
  inv_bind E. assert (Hr : R from h ies) by (apply HR; left; reflexivity).
  eapply grow_trans; [eapply handle_rx_grow; [intros; apply P_disp; exact Hr|intros; eapply P_resp; exact Hr|intros; eapply P_hbresp; eassumption|apply (Hv 0%nat)|eassumption]|].
  eapply IH; [| |exact E]; intros; [apply HR; right; assumption|apply Hv].
Qed.
Lemma step_grow s ev s' : good_event c ev -> match ev with ERx from d _ => forall h ies, In (RxMsg h ies) (rx_datagram d) -> R from h ies | ETick _ => False | _ => True end ->
  step c s ev = Ok s' -> grow s s'.
Proof.
  intros Hg HR E. destruct ev as [a|from d vs|dt|id snd k]; cbn [step good_event] in *.
  - eapply run_call_grow; [exact Hg|exact E].
  - dif_in E Eo; [|injection E as <-; apply grow_refl]. eapply handle_all_grow; [exact HR| |exact E]. intros i. destruct (Hg i) as (_ & A & B & C). repeat split; assumption.
  - destruct HR.
  - destruct Hg as [_ Hk].
    destruct (find_id id (e_reqs s)) as [q|]; [|destruct (find_id id (e_resps s)) as [q|]]; [| |injection E as <-; apply grow_refl].
    + dif_in E Ed; [|injection E as <-; apply grow_refl]. unfold req_timer in E. cbv zeta in E.
      eapply grow_trans; [apply grow_log with (o := OTimer (q_id q) (e_now s)); apply P_plain; exact I|].
      assert (DROP : forall s2 s3, bind (if q_cb q then run_calls c k (log (OResp (q_id q) None) s2) else Ok s2) (queue_del_req (q_id q)) = Ok s3 -> grow s2 s3).
      { intros s2 s3 X. inv_bind X. eapply grow_trans; [|eapply del_req_grow; exact X].
        match goal with Ha : (if q_cb q then _ else _) = Ok _ |- _ => dif_in Ha Ec; [eapply calls_grow; [exact Hk| |exact Ha]; apply P_plain; exact I|injection Ha as <-; apply grow_refl] end. }
      dif_in E E0; [exact (DROP _ _ E)|].
      match type of E with context [send_data ?a (Some ?b) ?d ?e ?f] => pose proof (send_some_grow a b d e f) as Hs; destruct (send_data a (Some b) d e f) as [s2 [|]] end; cbn [fst] in Hs.
      * injection E as <-. eapply grow_trans; [exact Hs|]. apply grow_same; reflexivity.
      * eapply grow_trans; [exact Hs|]. exact (DROP _ _ E).
    + dif_in E Ed; [|injection E as <-; apply grow_refl]. unfold resp_timer, queue_del_resp in E. dif_in E Eh; [|discriminate]. injection E as <-.
      eapply grow_trans; [apply grow_log with (o := OTimer (q_id q) (e_now s)); apply P_plain; exact I|].
      eapply grow_trans; [|apply grow_log; apply P_plain; exact I]. apply grow_same; reflexivity.
Qed.
End Event.
End Grow.
