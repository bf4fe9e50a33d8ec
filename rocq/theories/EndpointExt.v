(* EndpointExt.v -- what calls and events append to the trace; sequence number draws (C35); used for C33, C36, C38 *)
From Verif Require Import Base BaseProofs GtlvModel DecEncModel IesModel IesProofs TablesModel MsgModel RxProofs EndpointModel EndpointSpec EndpointProofs EndpointRun EndpointLife EndpointFinal EndpointProps.

(* the results of [n] calls of osmo_pfcp_next_seq_nr(), newest first *)
Fixpoint iters (n : nat) (s : N) : list N := match n with O => [] | S k => Nat.iter (S k) next_seq_nr s :: iters k s end.

Lemma draws_app a b : draws (a ++ b) = draws a ++ draws b.
Proof. induction a as [|o a IH]; cbn; [reflexivity|]. destruct o; cbn; rewrite ?IH; reflexivity. Qed.
Lemma iter_add {A} (f : A -> A) a b x : Nat.iter (a + b) f x = Nat.iter a f (Nat.iter b f x).
Proof.
  induction a; [reflexivity|]. change (f (Nat.iter (a + b) f x) = f (Nat.iter a f (Nat.iter b f x))). rewrite IHa. reflexivity.
Qed.
Lemma iters_app a b s : iters a (Nat.iter b next_seq_nr s) ++ iters b s = iters (a + b) s.
Proof. induction a as [|a IH]; cbn [iters app plus]; [reflexivity|]. rewrite IH. f_equal. symmetry. exact (iter_add next_seq_nr (S a) b s). Qed.
Lemma iters_len n s : length (iters n s) = n.
Proof. induction n; cbn; congruence. Qed.
Lemma iters_in n s x : In x (iters n s) -> exists i, (i < n)%nat /\ x = Nat.iter (S i) next_seq_nr s.
Proof. induction n as [|n IH]; [intros []|]. intros [H|H]; [exists n; split; [lia|symmetry; exact H]|]. destruct (IH H) as (i & Hi & E). exists i. split; [lia|exact E]. Qed.
Lemma iters_nodup n s : N.of_nat n <= 2 ^ 24 - 1 -> NoDup (iters n s).
Proof.
  induction n as [|n IH]; intros H; cbn [iters]; [constructor|]. constructor; [|apply IH; lia]. intros Hin. apply iters_in in Hin.
  destruct Hin as (i & Hi & E). symmetry in E. revert E. apply (ctr_distinct (2 ^ 24) eq_refl next_seq_nr next_seq_nr_eq s i n); lia.
Qed.

(* what a call can append to the trace *)
Definition call_out (o : out) : Prop :=
  match o with ODispatch _ _ _ _ | OTimer _ _ | OResp _ (Some _) => False | _ => True end.

Record ext (P : out -> Prop) (cl sq : bool) (s s' : ep) : Prop := mkExt {
  x_tr : exists new, e_trace s' = new ++ e_trace s /\ Forall P new
    /\ (sq = false -> map snd (draws new) = iters (length (draws new)) (e_seq s)
                      /\ e_seq s' = Nat.iter (length (draws new)) next_seq_nr (e_seq s));
  x_open : cl = false -> e_open s' = e_open s;
}.
Lemma ext_refl P cl sq s : ext P cl sq s s.
Proof. constructor; [|reflexivity]. exists []. repeat split; constructor. Qed.
Lemma ext_trans P cl sq s1 s2 s3 : ext P cl sq s1 s2 -> ext P cl sq s2 s3 -> ext P cl sq s1 s3.
Proof.
  intros [(n1 & A1 & A2 & A3) A4] [(n2 & B1 & B2 & B3) B4]. constructor; [|intros C; rewrite B4, A4 by assumption; reflexivity].
  exists (n2 ++ n1). split; [rewrite B1, A1; apply app_assoc|]. split; [apply Forall_app; split; assumption|].
  intros C. destruct (A3 C) as [A5 A6]. destruct (B3 C) as [B5 B6]. rewrite draws_app, map_app, app_length. split.
  - rewrite B5, A5, A6. apply iters_app.
  - rewrite B6, A6. symmetry. apply iter_add.
Qed.
Lemma ext_mono (P P' : out -> Prop) cl sq s s' : (forall o, P o -> P' o) -> ext P cl sq s s' -> ext P' cl sq s s'.
Proof. intros H [(n & A & B & C) D]. constructor; [|assumption]. exists n. split; [assumption|]. split; [|assumption]. eapply Forall_impl; [|exact B]. auto. Qed.
Lemma ext_log (P : out -> Prop) cl sq s o : P o -> draws [o] = [] -> ext P cl sq s (log o s).
Proof. intros H1 H2. constructor; [|reflexivity]. exists [o]. split; [reflexivity|]. split; [constructor; [assumption|constructor]|]. rewrite H2. intros _. split; reflexivity. Qed.
Lemma ext_same P cl sq s s' : e_trace s' = e_trace s -> e_seq s' = e_seq s -> e_open s' = e_open s -> ext P cl sq s s'.
Proof. intros A B C. constructor; [|auto]. exists []. split; [assumption|]. split; [constructor|]. intros _. split; [reflexivity|assumption]. Qed.
Lemma ext_draw (P : out -> Prop) cl sq s id : P (OSeq id (next_seq_nr (e_seq s))) -> ext P cl sq s (log (OSeq id (next_seq_nr (e_seq s))) (set_seq (next_seq_nr (e_seq s)) s)).
Proof. intros H. constructor; [|reflexivity]. exists [OSeq id (next_seq_nr (e_seq s))]. split; [reflexivity|]. split; [constructor; [assumption|constructor]|]. intros _. split; reflexivity. Qed.

Section Ext.
Variables (c : ep_cfg) (cl sq : bool).
Notation xt := (ext call_out cl sq).
Definition flags_ok (a : call) : Prop := (cl = false -> call_has is_close a = false) /\ (sq = false -> call_has is_set_seq a = false).
Definition flags_oks (k : list call) : Prop := (cl = false -> calls_have is_close k = false) /\ (sq = false -> calls_have is_set_seq k = false).

Lemma send_ext s id to bs snd : xt s (fst (send_data s id to bs snd)).
Proof. unfold send_data. destruct (e_open s && snd); apply ext_log; try exact I; reflexivity. Qed.
Lemma tx_data_ext s to h ies snd s' : tx_data s to h ies snd = Ok s' -> xt s s'.
Proof.
  unfold tx_data. destruct (encode_msg h ies); intros E; try discriminate; injection E as <-; [apply send_ext|].
  apply ext_log; [exact I|reflexivity].
Qed.
Lemma heartbeat_ext s to snd s' : tx_heartbeat_req s to snd = Ok s' -> xt s s'.
Proof. unfold tx_heartbeat_req. intros E. eapply ext_trans; [|eapply tx_data_ext; exact E]. apply ext_draw. exact I. Qed.
Lemma fail_ext (b : bool) cb s s' o : (forall s s', cb s = Ok s' -> xt s s') -> call_out o -> draws [o] = [] ->
  (if b then cb (log o s) else Ok s) = Ok s' -> xt s s'.
Proof. intros H Ho Hd. destruct b; [|intros [= <-]; apply ext_refl]. intros E. eapply ext_trans; [apply ext_log; eassumption|apply H; exact E]. Qed.
Lemma ep_tx_ext' cb s to h ies has_cb snd s' : (forall s s', cb s = Ok s' -> xt s s') -> ep_tx c cb s to h ies has_cb snd = Ok s' -> xt s s'.
Proof.
  intros H. unfold ep_tx. cbv zeta. set (s1 := log (OTx (e_next s) to h ies has_cb) (set_next (e_next s + 1) s)).
  assert (H1 : xt s s1). { eapply ext_trans; [apply ext_same with (s' := set_next (e_next s + 1) s); reflexivity|]. apply ext_log; [exact I|reflexivity]. }
  set (s2 := if is_response (hd_type h) then s1 else _).
  assert (H2 : xt s s2). { unfold s2. destruct (is_response (hd_type h)); [exact H1|]. eapply ext_trans; [exact H1|]. apply ext_draw. exact I. }
  assert (FIN : forall ok s, xt s (log (ORet (e_next s1 - 1) ok) s)) by (intros; apply ext_log; [exact I|reflexivity]).
  match goal with |- context [encode_msg ?h1 ?i1] => destruct (encode_msg h1 i1) as [bs|e|u] eqn:En end; [| |discriminate].
  - pose proof (send_ext s2 (Some (e_next s)) to bs snd) as Hs. destruct (send_data s2 _ _ _ _) as [s3 [|]]; cbn [fst] in Hs; intros E; inv_bind E; injection E as <-;
      (eapply ext_trans; [exact H2|]; eapply ext_trans; [exact Hs|]).
    + match goal with Hq : queue_add _ _ _ _ _ _ _ _ = Ok _ |- _ => unfold queue_add in Hq; dif_in Hq Ez end.
      * eapply ext_trans; [eapply fail_ext; [exact H| | |eassumption]; [exact I|reflexivity]|]. apply ext_log; [exact I|reflexivity].
      * match goal with Hq : Ok _ = Ok _ |- _ => injection Hq as <- end. eapply ext_trans; [|apply ext_log; [exact I|reflexivity]].
        apply ext_same; destruct (is_response _); reflexivity.
    + eapply ext_trans; [eapply fail_ext; [exact H| | |eassumption]; [exact I|reflexivity]|].
      eapply ext_trans; apply ext_log; try exact I; reflexivity.
  - intros E. inv_bind E. injection E as <-. eapply ext_trans; [exact H2|].
    eapply ext_trans; [|eapply ext_trans; [eapply fail_ext; [exact H| | |eassumption]; [exact I|reflexivity]|]].
    + apply ext_log; [exact I|reflexivity].
    + eapply ext_trans; apply ext_log; try exact I; reflexivity.
Qed.
Lemma run_calls_ext_list k : Forall (fun a => forall s s', flags_ok a -> run_call c a s = Ok s' -> xt s s') k ->
  forall s s', flags_oks k -> run_calls c k s = Ok s' -> xt s s'.
Proof.
  induction k as [|a k IH]; intros Hk s s' Hf E; cbn in E; [injection E as <-; apply ext_refl|].
  inversion Hk as [|? ? Ha Hk']; subst. inv_bind E. destruct Hf as [F1 F2].
  assert (flags_ok a /\ flags_oks k) as [G1 G2].
  { split; split; intros C; (specialize (F1 C) || specialize (F2 C)); unfold calls_have in *; cbn in *; rewrite orb_false_iff in *; tauto. }
  eapply ext_trans; [eapply Ha; eassumption|]. eapply IH; eassumption.
Qed.
Lemma run_call_ext a : forall s s', flags_ok a -> run_call c a s = Ok s' -> xt s s'.
Proof.
  induction a as [to h ies has_cb snd k IH|to h ies snd|to snd|n| |ok] using call_ind'; intros s s' Hf E.
  - rewrite run_call_tx in E. eapply ep_tx_ext'; [|exact E]. intros s1 s2 E1. eapply run_calls_ext_list; [exact IH| |exact E1]. exact Hf.
  - eapply tx_data_ext; exact E.
  - eapply heartbeat_ext; exact E.
  - injection E as <-. destruct Hf as [_ Hf]. constructor; [|reflexivity]. exists []. split; [reflexivity|]. split; [constructor|]. intros C. specialize (Hf C). discriminate.
  - injection E as <-. destruct Hf as [Hf _]. constructor; [|intros C; specialize (Hf C); discriminate].
    exists (rev (map (fun q => OFree (q_id q)) (e_reqs s ++ e_resps s))). split; [reflexivity|]. split.
    + apply Forall_rev, Forall_map, Forall_forall. intros q _. exact I.
    + assert (D : draws (rev (map (fun q => OFree (q_id q)) (e_reqs s ++ e_resps s))) = []).
      { induction (e_reqs s ++ e_resps s) as [|q l IHl]; cbn; [reflexivity|]. rewrite draws_app, IHl. reflexivity. }
      rewrite D. intros _. split; reflexivity.
  - injection E as <-. destruct Hf as [Hf _]. constructor; [|intros C; specialize (Hf C); discriminate].
    exists (rev (map (fun q => OFree (q_id q)) (e_reqs s ++ e_resps s))). split; [reflexivity|]. split.
    + apply Forall_rev, Forall_map, Forall_forall. intros q _. exact I.
    + assert (D : draws (rev (map (fun q => OFree (q_id q)) (e_reqs s ++ e_resps s))) = []).
      { induction (e_reqs s ++ e_resps s) as [|q l IHl]; cbn; [reflexivity|]. rewrite draws_app, IHl. reflexivity. }
      rewrite D. intros _. split; reflexivity.
Qed.
Lemma run_calls_ext k s s' : flags_oks k -> run_calls c k s = Ok s' -> xt s s'.
Proof. apply run_calls_ext_list. apply Forall_forall. intros a _. apply run_call_ext. Qed.

(* events append anything *)
Notation xa := (ext (fun _ => True) cl sq).
Lemma to_xa s s' : xt s s' -> xa s s'.
Proof. apply ext_mono. auto. Qed.
Definition flags_env (v : env) : Prop := (cl = false -> env_has is_close v = false) /\ (sq = false -> env_has is_set_seq v = false).
Lemma flags_env_parts v : flags_env v -> flags_oks (v_ctx v) /\ flags_oks (v_resp v) /\ flags_oks (v_rx v).
Proof.
  intros [A B]. repeat split; intros C; (specialize (A C) || specialize (B C)); unfold env_has in *; rewrite !orb_false_iff in *; tauto.
Qed.
Lemma xa_calls k o s s' : flags_oks k -> draws [o] = [] -> run_calls c k (log o s) = Ok s' -> xa s s'.
Proof. intros Hk Ho E. eapply ext_trans; [apply ext_log; [exact I|exact Ho]|]. apply to_xa. eapply run_calls_ext; eassumption. Qed.
Lemma del_req_ext id s s' : queue_del_req id s = Ok s' -> xa s s'.
Proof.
  unfold queue_del_req. dif Eh; [|discriminate]. intros [= <-]. eapply ext_trans; [|apply ext_log; [exact I|reflexivity]]. apply ext_same; reflexivity.
Qed.
Lemma handle_rx_ext s from h ies v s' : flags_env v -> handle_rx c s from h ies v = Ok s' -> xa s s'.
Proof.
  intros Hv E. destruct (flags_env_parts v Hv) as (F1 & F2 & F3). unfold handle_rx in E. inv_bind E. rename x into s1.
  eapply ext_trans with (s2 := s1); [apply to_xa; match goal with Hs : _ = Ok s1 |- _ => dif_in Hs Eh; [exact (tx_data_ext _ _ _ _ _ _ Hs)|injection Hs as <-; apply ext_refl] end|].
  destruct (queue_find _ h) as [q|]; inv_bind E; (eapply ext_trans; [apply to_xa; eapply run_calls_ext; [exact F1|eassumption]|]).
  - dif_in E R.
    + dif_in E Hh; [|discriminate]. injection E as <-. apply to_xa, send_ext.
    + dif_in E Hh; [discriminate|]. inv_bind E. inv_bind E.
      match goal with Ha : (if q_cb q then _ else _) = Ok ?x, Hb : (if negb (q_cb q) || _ then _ else _) = Ok ?y |- _ =>
        eapply ext_trans with (s2 := x); [dif_in Ha Ec; [eapply xa_calls; [exact F2| |exact Ha]; reflexivity|injection Ha as <-; apply ext_refl]|];
        eapply ext_trans with (s2 := y); [dif_in Hb Ed; [eapply xa_calls; [exact F3| |exact Hb]; reflexivity|injection Hb as <-; apply ext_refl]|] end.
      eapply del_req_ext. exact E.
  - eapply xa_calls; [exact F3| |exact E]. reflexivity.
Qed.
Lemma handle_all_ext from l : forall vs s s', (forall i, flags_env (vs i)) -> handle_all c from l vs s = Ok s' -> xa s s'.
Proof.
  induction l as [|o l IH]; intros vs s s' Hv E; cbn in E; [injection E as <-; apply ext_refl|].
  destruct o as [h ies|e|e|u]; [|eapply IH; [|exact E]; intros i; apply Hv|injection E as <-; apply ext_refl|discriminate].
  inv_bind E. eapply ext_trans; [eapply handle_rx_ext; [|eassumption]; apply Hv|]. eapply IH; [|exact E]. intros i. apply Hv.
Qed.
Lemma step_ext s ev s' : (cl = false -> event_free is_close ev) -> (sq = false -> event_free is_set_seq ev) -> step c s ev = Ok s' -> xa s s'.
Proof.
  intros Hc Hq E. destruct ev as [a|from d vs|dt|id snd k]; cbn [step event_free] in *.
  - apply to_xa. eapply run_call_ext; [|exact E]. split; assumption.
  - dif_in E Eo; [|injection E as <-; apply ext_refl]. eapply handle_all_ext; [|exact E]. intros i. split; auto.
  - injection E as <-. apply ext_same; reflexivity.
  - assert (Fk : flags_oks k) by (split; assumption).
    destruct (find_id id (e_reqs s)) as [q|]; [|destruct (find_id id (e_resps s)) as [q|]]; [| |injection E as <-; apply ext_refl].
    + dif_in E Ed; [|injection E as <-; apply ext_refl]. unfold req_timer in E. cbv zeta in E.
      eapply ext_trans; [apply ext_log with (o := OTimer (q_id q) (e_now s)); [exact I|reflexivity]|].
      assert (DROP : forall s2 s3, bind (if q_cb q then run_calls c k (log (OResp (q_id q) None) s2) else Ok s2) (queue_del_req (q_id q)) = Ok s3 -> xa s2 s3).
      { intros s2 s3 X. inv_bind X. eapply ext_trans; [|eapply del_req_ext; exact X].
        match goal with Ha : (if q_cb q then _ else _) = Ok _ |- _ => dif_in Ha Ec; [eapply xa_calls; [exact Fk| |exact Ha]; reflexivity|injection Ha as <-; apply ext_refl] end. }
      dif_in E E0; [exact (DROP _ _ E)|].
      match type of E with context [send_data ?a ?b ?d ?e ?f] => pose proof (send_ext a b d e f) as Hs; destruct (send_data a b d e f) as [s2 [|]] end; cbn [fst] in Hs.
      * injection E as <-. eapply ext_trans; [apply to_xa; exact Hs|]. apply ext_same; reflexivity.
      * eapply ext_trans; [apply to_xa; exact Hs|]. exact (DROP _ _ E).
    + dif_in E Ed; [|injection E as <-; apply ext_refl]. unfold resp_timer, queue_del_resp in E. dif_in E Eh; [|discriminate]. injection E as <-.
      eapply ext_trans; [apply ext_log with (o := OTimer (q_id q) (e_now s)); [exact I|reflexivity]|].
      eapply ext_trans; [|apply ext_log; [exact I|reflexivity]]. apply ext_same; reflexivity.
Qed.
Lemma run_ext evs : forall s s', (cl = false -> Forall (event_free is_close) evs) -> (sq = false -> Forall (event_free is_set_seq) evs) ->
  run c s evs = Ok s' -> xa s s'.
Proof.
  induction evs as [|ev evs IH]; intros s s' Hc Hq E; cbn in E; [injection E as <-; apply ext_refl|]. inv_bind E.
  eapply ext_trans; [eapply step_ext; [| |eassumption]|eapply IH; [| |exact E]]; intros C; (specialize (Hc C) || specialize (Hq C));
    match goal with F : Forall _ (_ :: _) |- _ => inversion F; assumption end.
Qed.
End Ext.

(* ---------------------------------------------------------------- C35 *)
Lemma in_draws id n tr : In (OSeq id n) tr <-> In (id, n) (draws tr).
Proof.
  induction tr as [|o tr IH]; cbn; [tauto|]. destruct o; cbn; rewrite <- ?IH; try (split; [intros [H|H]; [discriminate|exact H]|tauto]).
  split; intros [H|H]; try tauto; left; congruence.
Qed.
Lemma nodup_snd (l : list (option N * N)) x y a : NoDup (map snd l) -> In (x, a) l -> In (y, a) l -> x = y.
Proof.
  induction l as [|[z b] l IH]; cbn; [tauto|]. intros H H1 H2. inversion H as [|? ? Hn H']; subst.
  destruct H1 as [H1|H1], H2 as [H2|H2].
  - congruence.
  - exfalso. apply Hn. injection H1 as -> ->. apply in_map_iff. exists (y, a). auto.
  - exfalso. apply Hn. injection H2 as -> ->. apply in_map_iff. exists (x, a). auto.
  - auto.
Qed.
(* sequence numbers drawn along a history that does not set the sequence number state *)
Theorem draws_distinct c s evs s' new : run c s evs = Ok s' -> Forall (event_free is_set_seq) evs -> e_trace s' = new ++ e_trace s ->
  N.of_nat (length (draws new)) <= 2 ^ 24 - 1 -> forall x y a, In (OSeq x a) new -> In (OSeq y a) new -> x = y.
Proof.
  intros E Hf Ht Hn x y a Hx Hy. destruct (run_ext c true false evs s s' ltac:(discriminate) (fun _ => Hf) E) as [(n & A & _ & B) _].
  destruct (B eq_refl) as [B1 _]. rewrite A in Ht. apply app_inv_tail in Ht. subst n.
  eapply nodup_snd; [|apply in_draws; exact Hx|apply in_draws; exact Hy]. rewrite B1. apply iters_nodup. assumption.
Qed.
Lemma pending_seq c s q : reachable c s -> In q (e_reqs s) -> In (OSeq (Some (q_id q)) (hd_seq (q_h q))) (e_trace s) /\ q_id q < e_next s.
Proof.
  intros H Hq. pose proof (reach_wf c s H) as W. assert (Hid : q_id q < e_next s) by (apply (wf_lt s W), in_app_iff; tauto). split; [|assumption].
  destruct (reach_known c s _ H Hid) as (m & p & K).
  destruct (phase_req s _ m p q W (kn_phase _ _ _ _ _ _ _ K) (wf_ent_req (D_le 0) s q W Hq)) as (_ & Eq & R).
  pose proof (li_seq _ _ _ _ _ _ _ (kn_inv _ _ _ _ _ _ _ K) R) as Hs.
  replace (hd_seq (q_h q)) with (mi_nr m) by (rewrite Eq; reflexivity).
  exact (proj1 (in_tr_of (q_id q) (OSeq (Some (q_id q)) (mi_nr m)) (e_trace s) (N.eqb_refl _)) Hs).
Qed.
Theorem pending_distinct c s evs s' new : reachable c s -> run c s evs = Ok s' -> Forall (event_free is_set_seq) evs -> e_trace s' = new ++ e_trace s ->
  N.of_nat (length (draws new)) <= 2 ^ 24 - 1 ->
  forall q1 q2, In q1 (e_reqs s') -> In q2 (e_reqs s') -> e_next s <= q_id q1 -> e_next s <= q_id q2 -> hd_seq (q_h q1) = hd_seq (q_h q2) -> q1 = q2.
Proof.
  intros H E Hf Ht Hn q1 q2 H1 H2 N1 N2 Es. pose proof (reach_run _ _ _ _ H E) as H'. pose proof (reach_wf _ _ H') as W'.
  destruct (pending_seq c s' q1 H' H1) as [S1 _]. destruct (pending_seq c s' q2 H' H2) as [S2 _].
  assert (NEW : forall q, e_next s <= q_id q -> In (OSeq (Some (q_id q)) (hd_seq (q_h q))) (e_trace s') -> In (OSeq (Some (q_id q)) (hd_seq (q_h q))) new).
  { intros q Hq Hin. rewrite Ht in Hin. apply in_app_iff in Hin. destruct Hin as [Hin|Hin]; [assumption|].
    pose proof (wf_about s (q_id q) _ (reach_wf _ _ H) Hin (N.eqb_refl _)). lia. }
  apply (NEW q1 N1) in S1. apply (NEW q2 N2) in S2. rewrite Es in S1.
  pose proof (draws_distinct c s evs s' new E Hf Ht Hn _ _ _ S1 S2) as X. injection X as X.
  pose proof (find_id_nodup _ q1 (wf_reqs _ W') H1) as F1. pose proof (find_id_nodup _ q2 (wf_reqs _ W') H2) as F2. rewrite X in F1. congruence.
Qed.

(* ---------------------------------------------------------------- C97 *)
Lemma next_seq_first n : next_seq_nr n = n mod 2 ^ 24 mod (2 ^ 24 - 1) + 1.
Proof.
  rewrite next_seq_nr_eq. rewrite (N.add_mod n 1) by discriminate. change (1 mod 2 ^ 24) with 1.
  pose proof (N.mod_upper_bound n (2 ^ 24) ltac:(discriminate)) as H. set (m := n mod 2 ^ 24) in *. change (2 ^ 24) with 16777216 in *.
  destruct (N.eq_dec m 16777215) as [E|E]; [rewrite E; reflexivity|]. rewrite (N.mod_small (m + 1)) by lia. rewrite (N.mod_small m) by lia.
  destruct (N.eqb_spec (m + 1) 0); lia.
Qed.
Lemma seq_iter n k : Nat.iter (S k) next_seq_nr n = seq_after n (N.of_nat (S k)).
Proof.
  rewrite (ctr_iter (2 ^ 24) eq_refl next_seq_nr next_seq_nr_eq). rewrite next_seq_first, N.add_sub. unfold seq_after.
  rewrite N.add_mod_idemp_l by discriminate. f_equal. f_equal. rewrite Nat2N.inj_succ. lia.
Qed.
Lemma iters_rev m n : rev (iters m n) = map (fun k => seq_after n (N.of_nat k)) (seq 1 m).
Proof.
  induction m as [|m IH]; [reflexivity|]. rewrite seq_S, map_app. cbn [iters rev plus map]. rewrite IH, seq_iter. reflexivity.
Qed.
Lemma draws_rev l : draws (rev l) = rev (draws l).
Proof. induction l as [|o l IH]; [reflexivity|]. cbn [rev]. rewrite draws_app, IH. destruct o; cbn; rewrite ?app_nil_r; reflexivity. Qed.
Theorem draws_exact c s n evs s' new : run c s evs = Ok s' -> e_seq s = n -> Forall (event_free is_set_seq) evs -> e_trace s' = new ++ e_trace s ->
  map snd (draws (rev new)) = map (fun k => seq_after n (N.of_nat k)) (seq 1 (length (draws new))).
Proof.
  intros E Hs Hf Ht. destruct (run_ext c true false evs s s' ltac:(discriminate) (fun _ => Hf) E) as [(m & A & _ & B) _].
  destruct (B eq_refl) as [B1 _]. rewrite A in Ht. apply app_inv_tail in Ht. subst m. rewrite draws_rev, map_rev, B1, Hs. apply iters_rev.
Qed.
Theorem draws_after_set c s n evs s' new : n < 2 ^ 32 -> run c s (ECall (CSetSeq n) :: evs) = Ok s' -> Forall (event_free is_set_seq) evs -> e_trace s' = new ++ e_trace s ->
  map snd (draws (rev new)) = map (fun k => seq_after n (N.of_nat k)) (seq 1 (length (draws new))).
Proof.
  intros Hn E Hf Ht. cbn [run step run_call bind] in E. eapply draws_exact; [exact E| |exact Hf|exact Ht]. cbn. apply N.mod_small. exact Hn.
Qed.
