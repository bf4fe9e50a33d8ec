(* FreeProofs.v -- C100 *)
From Verif Require Import Base BaseProofs GtlvModel DecEncModel DecEncProofs IesModel TablesModel MsgModel EndpointModel EndpointSpec EndpointProofs EndpointRun EndpointLife EndpointFinal EndpointProps EndpointExt EndpointProps2 EndpointProps3 FreeModel FreeSpec ErrnoProofs RxProofs.

Lemma fcall_ind' (P : fcall -> Prop) :
  P FFree -> (forall to h ies has_cb snd child k, Forall P k -> P (FTx to h ies has_cb snd child k)) -> (forall a, P (FCall a)) -> forall a, P a.
Proof.
  intros H1 H2 H3. fix IH 1. intros [|to h ies has_cb snd child k|a]; [exact H1| |apply H3]. apply H2. induction k as [|a k IHk]; constructor; [apply IH|assumption].
Qed.
Lemma fep_tx_ext c f g s to h ies has_cb snd child : (forall x, f x = g x) -> fep_tx c f s to h ies has_cb snd child = fep_tx c g s to h ies has_cb snd child.
Proof.
  intros E. unfold fep_tx, fqueue_add. cbv zeta. destruct (encode_msg _ _); [|rewrite ?E; reflexivity|reflexivity].
  destruct (send_data _ _ _ _ _) as [s1 []]; rewrite ?E; reflexivity.
Qed.
Lemma frun_call_tx c to h ies has_cb snd child k x :
  frun_call c (FTx to h ies has_cb snd child k) x = with_ep (fun s => fep_tx c (fun y => frun_calls c k y) s to h ies has_cb snd child) x.
Proof.
  destruct x as [s|tr]; [|reflexivity]. cbn [frun_call with_ep]. apply fep_tx_ext. clear. induction k as [|a k IH]; intros x; [reflexivity|]. cbn [frun_calls].
  destruct (frun_call c a x); [apply IH|reflexivity|reflexivity].
Qed.

(* ---------------------------------------------------------------- without free *)
Lemma live_bind (r : res ep) (f : fep -> res fep) (g : ep -> res ep) : (forall s, f (Live s) = live (g s)) -> bind (live r) f = live (bind r g).
Proof. intros H. destruct r; cbn [live bind]; [apply H|reflexivity|reflexivity]. Qed.
Lemma live_ok s : live (Ok s) = Ok (Live s).
Proof. reflexivity. Qed.

Lemma fep_tx_live c (cb : fep -> res fep) (g : ep -> res ep) s to h ies has_cb snd child : (forall s, cb (Live s) = live (g s)) ->
  fep_tx c cb s to h ies has_cb snd child = live (ep_tx c g s to h ies has_cb snd).
Proof.
  intros H. unfold fep_tx, ep_tx. cbv zeta. destruct (encode_msg _ _) as [bs|e|u]; [|destruct (negb _ && has_cb); [rewrite H; apply live_bind; reflexivity|reflexivity]|reflexivity].
  destruct (send_data _ _ _ _ _) as [s1 []]; [|destruct (negb _ && has_cb); [rewrite H; apply live_bind; reflexivity|reflexivity]].
  unfold fqueue_add, queue_add. cbn [hd_type]. destruct ((c_n1 c =? 0) || (c_t1 c =? 0)).
  - destruct (negb _ && has_cb); [rewrite H; apply live_bind; reflexivity|reflexivity].
  - reflexivity.
Qed.
Lemma frun_live c a : has_free a = false -> forall s, frun_call c a (Live s) = live (run_call c (as_call a) s).
Proof.
  induction a as [|to h ies has_cb snd child k IH|a] using fcall_ind'; intros Hf s; [discriminate| |reflexivity].
  rewrite frun_call_tx. cbn [with_ep as_call]. rewrite run_call_tx. apply fep_tx_live. cbn [has_free] in Hf. induction IH as [|a k Ha Hk IHk]; intros s1; [reflexivity|].
  cbn [existsb] in Hf. apply orb_false_iff in Hf as [F1 F2]. cbn [frun_calls map run_calls]. rewrite (Ha F1). apply live_bind. intros s2. exact (IHk F2 s2).
Qed.
Lemma fruns_live c k : existsb has_free k = false -> forall s, frun_calls c k (Live s) = live (run_calls c (map as_call k) s).
Proof.
  induction k as [|a k IH]; intros Hf s; [reflexivity|]. cbn [existsb] in Hf. apply orb_false_iff in Hf as [F1 F2]. cbn [frun_calls map run_calls]. rewrite (frun_live c a F1). apply live_bind. intros s2. exact (IH F2 s2).
Qed.
Definition env_has_free (v : fenv) : bool := existsb has_free (fv_ctx v) || existsb has_free (fv_resp v) || existsb has_free (fv_rx v).
Lemma fhandle_live c s from h ies v : env_has_free v = false -> fhandle_rx c s from h ies v = live (handle_rx c s from h ies (as_env v)).
Proof.
  unfold env_has_free. rewrite !orb_false_iff. intros [[F1 F2] F3]. unfold fhandle_rx, handle_rx. cbn [as_env v_hb v_ctx v_resp v_rx v_rc1 v_resend].
  destruct (if hd_type h =? msgt_heartbeat_req then _ else _) as [s1|e|u]; cbn [bind live]; [|reflexivity|reflexivity].
  destruct (queue_find _ h) as [q|].
  - rewrite (fruns_live c _ F1). apply live_bind. intros s2. cbn [with_ep]. destruct (negb (is_response (hd_type h))).
    + destruct (has_id _ _); reflexivity.
    + destruct (negb (has_id _ _)); [reflexivity|].
      assert (A : (if q_cb q then frun_calls c (fv_resp v) (Live (log (OResp (q_id q) (Some (h, ies))) s2)) else Ok (Live s2)) =
        live (if q_cb q then run_calls c (map as_call (fv_resp v)) (log (OResp (q_id q) (Some (h, ies))) s2) else Ok s2)) by (destruct (q_cb q); [apply fruns_live, F2|reflexivity]).
      rewrite A. apply live_bind. intros s3. assert (B : (if negb (q_cb q) || fv_rc1 v then with_ep (fun s => frun_calls c (fv_rx v) (Live (log (ODispatch from h ies (Some (q_id q))) s))) (Live s3) else Ok (Live s3)) =
        live (if negb (q_cb q) || fv_rc1 v then run_calls c (map as_call (fv_rx v)) (log (ODispatch from h ies (Some (q_id q))) s3) else Ok s3)) by (destruct (negb (q_cb q) || fv_rc1 v); [apply fruns_live, F3|reflexivity]).
      rewrite B. apply live_bind. reflexivity.
  - rewrite (fruns_live c _ F1). apply live_bind. intros s2. apply fruns_live, F3.
Qed.
Lemma fall_live c from l : forall vs s, (forall i, env_has_free (vs i) = false) -> fhandle_all c from l vs (Live s) = live (handle_all c from l (fun i => as_env (vs i)) s).
Proof.
  induction l as [|o l IH]; intros vs s Hv; [reflexivity|]. destruct o as [h ies|e|e|u]; cbn [fhandle_all handle_all]; [| |reflexivity|reflexivity].
  - cbn [with_ep]. rewrite (fhandle_live c s from h ies _ (Hv 0%nat)). apply live_bind. intros s2. apply (IH (fun i => vs (S i))). intros i. apply Hv.
  - apply (IH (fun i => vs (S i))). intros i. apply Hv.
Qed.
Lemma fstep_live c s ev : ~ fevent_has_free ev -> fstep c (Live s) ev = live (step c s (as_event ev)).
Proof.
  destruct ev as [a|from d vs|dt|id snd k]; cbn [fevent_has_free fstep as_event step]; intros H.
  - apply frun_live. destruct (has_free a); [congruence|reflexivity].
  - destruct (e_open s); [|reflexivity]. apply fall_live. intros i. unfold env_has_free. destruct (_ || _) eqn:E; [|reflexivity]. exfalso. apply H. exists i. exact E.
  - reflexivity.
  - assert (F : existsb has_free k = false) by (destruct (existsb has_free k); [congruence|reflexivity]).
    destruct (find_id id (e_reqs s)) as [q|].
    + destruct (q_dl q <=? e_now s); [|reflexivity]. unfold freq_timer, req_timer.
      assert (D : forall s, (x <- (if q_cb q then frun_calls c k (Live (log (OResp (q_id q) None) s)) else Ok (Live s));; fqueue_del (q_id q) x) =
         live (s <- (if q_cb q then run_calls c (map as_call k) (log (OResp (q_id q) None) s) else Ok s);; queue_del_req (q_id q) s)).
      { intros s1. destruct (q_cb q); [rewrite (fruns_live c k F)|rewrite <- live_ok]; apply live_bind; reflexivity. }
      destruct (q_n1 q =? 0); [apply D|]. destruct (send_data _ _ _ _ _) as [s1 []]; [reflexivity|apply D].
    + destruct (find_id id (e_resps s)) as [q|]; [|reflexivity]. destruct (q_dl q <=? e_now s); reflexivity.
Qed.
Theorem without_free c evs : forall s, Forall (fun ev => ~ fevent_has_free ev) evs -> frun c (Live s) evs = live (run c s (map as_event evs)).
Proof.
  induction evs as [|ev evs IH]; intros s H; [reflexivity|]. inversion H; subst. cbn [frun map run]. rewrite fstep_live by assumption. apply live_bind. intros s1. apply IH. assumption.
Qed.

(* ---------------------------------------------------------------- gone *)
Lemma frun_gone c a tr y : frun_call c a (Gone tr) = Ok y <-> a = FFree /\ y = Gone tr.
Proof.
  destruct a as [|to h ies has_cb snd child k|a]; [cbn [frun_call ffree]| |].
  - split; [intros [= <-]; split; reflexivity|intros [_ ->]; reflexivity].
  - rewrite frun_call_tx. split; [discriminate|intros [[=] _]].
  - split; [discriminate|intros [[=] _]].
Qed.
Lemma fruns_gone c k : forall tr y, frun_calls c k (Gone tr) = Ok y <-> Forall (eq FFree) k /\ y = Gone tr.
Proof.
  induction k as [|a k IH]; intros tr y; cbn [frun_calls].
  - split; [intros [= <-]; split; [constructor|reflexivity]|intros [_ ->]; reflexivity].
  - split.
    + intros H. apply bind_ok in H as (x & H1 & H2). apply frun_gone in H1 as [-> ->]. apply IH in H2 as [A ->]. split; [constructor; [reflexivity|exact A]|reflexivity].
    + intros [A ->]. inversion A; subst. cbn [frun_call ffree bind]. apply IH. split; [assumption|reflexivity].
Qed.
Theorem gone_run c evs : forall tr, match frun c (Gone tr) evs with
  | Ok y => y = Gone tr /\ existsb uses evs = false
  | Err _ => False
  | UB u => existsb uses evs = true
  end.
Proof.
  induction evs as [|ev evs IH]; intros tr; cbn [frun existsb]; [split; reflexivity|].
  destruct ev as [[|to h ies has_cb snd child k|a]|from d vs|dt|id snd k]; cbn [fstep uses orb]; try (cbn [bind]; exact (IH tr)); try reflexivity.
Qed.

(* ---------------------------------------------------------------- never an error code *)
Lemma ep_tx_noerr c g s to h ies has_cb snd : (forall s e, g s <> Err e) -> forall e, ep_tx c g s to h ies has_cb snd <> Err e.
Proof.
  intros H e. unfold ep_tx, queue_add. cbv zeta. cbn [hd_type].
  assert (F : forall (b : bool) s0 (f : ep -> ep), (s1 <- (if b then g s0 else Ok (f s0)) ;; Ok (f s1)) <> Err e) by (intros b s0 f; destruct b; [destruct (g s0) eqn:E; cbn [bind]; try discriminate; exfalso; exact (H _ _ E)|discriminate]).
  destruct (encode_msg _ _); [| |discriminate].
  - destruct (send_data _ _ _ _ _) as [s1 []].
    + destruct (_ || _); [|discriminate]. destruct (negb _ && has_cb); [|discriminate]. match goal with |- context [g ?x] => destruct (g x) eqn:E; cbn [bind]; try discriminate; exfalso; exact (H _ _ E) end.
    + destruct (negb _ && has_cb); [|discriminate]. match goal with |- context [g ?x] => destruct (g x) eqn:E; cbn [bind]; try discriminate; exfalso; exact (H _ _ E) end.
  - destruct (negb _ && has_cb); [|discriminate]. match goal with |- context [g ?x] => destruct (g x) eqn:E; cbn [bind]; try discriminate; exfalso; exact (H _ _ E) end.
Qed.
Lemma tx_data_noerr s to h ies snd e : tx_data s to h ies snd <> Err e.
Proof. unfold tx_data. destruct (encode_msg h ies); discriminate. Qed.
Lemma run_call_noerr c a : forall s e, run_call c a s <> Err e.
Proof.
  induction a as [to h ies has_cb snd k IH|to h ies snd|to snd|n| |ok] using call_ind'; intros s e; try discriminate.
  - rewrite run_call_tx. apply ep_tx_noerr. clear s e. induction IH as [|a k Ha Hk IHk]; intros s e; [discriminate|]. cbn [run_calls].
    destruct (run_call c a s) eqn:E; cbn [bind]; [apply IHk|exfalso; exact (Ha _ _ E)|discriminate].
  - apply tx_data_noerr.
Qed.
Lemma fmsg_free_noerr child id x e : fmsg_free child id x <> Err e.
Proof. destruct x; cbn [fmsg_free]; [discriminate|destruct child; discriminate]. Qed.
Lemma fep_tx_noerr c g s to h ies has_cb snd child : (forall s e, g s <> Err e) -> forall e, fep_tx c g s to h ies has_cb snd child <> Err e.
Proof.
  intros H e. unfold fep_tx, fqueue_add, queue_add. cbv zeta. cbn [hd_type].
  assert (F : forall (b : bool) s0 s1 id, (x <- (if b then g (Live s0) else Ok (Live s1)) ;; x <- fmsg_free child id x ;; Ok (flog (ORet id false) x)) <> Err e).
  { intros b s0 s1 id. assert (F' : forall x, (x <- fmsg_free child id x ;; Ok (flog (ORet id false) x)) <> Err e).
    { intros x. destruct (fmsg_free child id x) eqn:E; cbn [bind]; [discriminate|exfalso; exact (fmsg_free_noerr _ _ _ _ E)|discriminate]. }
    destruct b; [|apply F']. destruct (g (Live s0)) eqn:E; cbn [bind]; [apply F'|exfalso; exact (H _ _ E)|discriminate]. }
  destruct (encode_msg _ _); [|apply F|discriminate]. destruct (send_data _ _ _ _ _) as [s1 []]; [|apply F].
  destruct (_ || _); [|discriminate]. destruct (negb _ && has_cb); [|discriminate]. match goal with |- context [g ?x] => destruct (g x) eqn:E; cbn [bind]; try discriminate; exfalso; exact (H _ _ E) end.
Qed.
Lemma frun_noerr c a : forall x e, frun_call c a x <> Err e.
Proof.
  induction a as [|to h ies has_cb snd child k IH|a] using fcall_ind'; intros x e.
  - discriminate.
  - rewrite frun_call_tx. destruct x as [s|tr]; [|discriminate]. cbn [with_ep]. apply fep_tx_noerr. clear s e. induction IH as [|a k Ha Hk IHk]; intros s e; [discriminate|]. cbn [frun_calls].
    destruct (frun_call c a s) eqn:E; cbn [bind]; [apply IHk|exfalso; exact (Ha _ _ E)|discriminate].
  - destruct x as [s|tr]; [|discriminate]. cbn [frun_call with_ep]. destruct (run_call c a s) eqn:E; try discriminate. exfalso. exact (run_call_noerr _ _ _ _ E).
Qed.
Lemma fruns_noerr c k : forall x e, frun_calls c k x <> Err e.
Proof. induction k as [|a k IH]; intros x e; [discriminate|]. cbn [frun_calls]. destruct (frun_call c a x) eqn:E; cbn [bind]; [apply IH|exfalso; exact (frun_noerr _ _ _ _ E)|discriminate]. Qed.
Lemma fqueue_del_noerr id x e : fqueue_del id x <> Err e.
Proof. destruct x as [s|tr]; [|discriminate]. cbn [fqueue_del with_ep]. unfold queue_del_req. destruct (has_id _ _); discriminate. Qed.
Lemma fhandle_noerr c s from h ies v e : fhandle_rx c s from h ies v <> Err e.
Proof.
  unfold fhandle_rx. destruct (if hd_type h =? msgt_heartbeat_req then _ else _) as [s1|x|u] eqn:E0; cbn [bind]; [|destruct (hd_type h =? msgt_heartbeat_req); [exfalso; exact (tx_data_noerr _ _ _ _ _ _ E0)|discriminate]|discriminate].
  destruct (queue_find _ h) as [q|].
  - destruct (frun_calls c (fv_ctx v) (Live s1)) as [x|x|u] eqn:E1; cbn [bind]; [|exfalso; exact (fruns_noerr _ _ _ _ E1)|discriminate].
    destruct x as [s2|tr]; cbn [with_ep]; [|discriminate]. destruct (negb (is_response (hd_type h))); [destruct (has_id _ _); discriminate|]. destruct (negb (has_id _ _)); [discriminate|].
    destruct (if q_cb q then _ else _) as [x|x|u] eqn:E2; cbn [bind]; [|destruct (q_cb q); [exfalso; exact (fruns_noerr _ _ _ _ E2)|discriminate]|discriminate].
    destruct (if negb (q_cb q) || fv_rc1 v then _ else _) as [y|y|u] eqn:E3; cbn [bind]; [apply fqueue_del_noerr| |discriminate].
    destruct (negb (q_cb q) || fv_rc1 v); [|discriminate]. destruct x as [s3|tr]; [|discriminate]. cbn [with_ep] in E3. exfalso; exact (fruns_noerr _ _ _ _ E3).
  - destruct (frun_calls c (fv_ctx v) (Live s1)) as [x|x|u] eqn:E1; cbn [bind]; [|exfalso; exact (fruns_noerr _ _ _ _ E1)|discriminate]. destruct x; [apply fruns_noerr|discriminate].
Qed.
Lemma fall_noerr c from l : forall vs x e, fhandle_all c from l vs x <> Err e.
Proof.
  induction l as [|o l IH]; intros vs x e; [discriminate|]. destruct o as [h ies|e1|e1|u]; cbn [fhandle_all]; [|apply IH|discriminate|discriminate].
  destruct x as [s|tr]; cbn [with_ep]; [|discriminate]. destruct (fhandle_rx c s from h ies (vs 0%nat)) eqn:E; cbn [bind]; [apply IH|exfalso; exact (fhandle_noerr _ _ _ _ _ _ _ E)|discriminate].
Qed.
Lemma freq_timer_noerr c q snd k s e : freq_timer c q snd k s <> Err e.
Proof.
  unfold freq_timer. assert (D : forall s, (x <- (if q_cb q then frun_calls c k (Live (log (OResp (q_id q) None) s)) else Ok (Live s));; fqueue_del (q_id q) x) <> Err e).
  { intros s1. destruct (q_cb q); [|apply fqueue_del_noerr]. destruct (frun_calls _ _ _) eqn:E; cbn [bind]; [apply fqueue_del_noerr|exfalso; exact (fruns_noerr _ _ _ _ E)|discriminate]. }
  destruct (q_n1 q =? 0); [apply D|]. destruct (send_data _ _ _ _ _) as [s1 []]; [discriminate|apply D].
Qed.
Lemma fstep_noerr c x ev e : fstep c x ev <> Err e.
Proof.
  destruct x as [s|tr]; [|destruct ev; try discriminate; apply frun_noerr]. destruct ev as [a|from d vs|dt|id snd k]; cbn [fstep].
  - apply frun_noerr.
  - destruct (e_open s); [apply fall_noerr|discriminate].
  - discriminate.
  - destruct (find_id id (e_reqs s)) as [q|]; [destruct (q_dl q <=? e_now s); [apply freq_timer_noerr|discriminate]|].
    destruct (find_id id (e_resps s)) as [q|]; [|discriminate]. destruct (q_dl q <=? e_now s); [|discriminate]. unfold resp_timer, queue_del_resp. destruct (has_id _ _); discriminate.
Qed.
Theorem never_an_error c evs : forall x e, frun c x evs <> Err e.
Proof. induction evs as [|ev evs IH]; intros x e; [discriminate|]. cbn [frun]. destruct (fstep c x ev) eqn:E; cbn [bind]; [apply IH|exfalso; exact (fstep_noerr _ _ _ _ E)|discriminate]. Qed.

(* ---------------------------------------------------------------- freeing is closing *)
Definition R (x : fep) (s : ep) : Prop :=
  match x with Live s0 => s = s0 | Gone tr => e_trace s = tr /\ e_reqs s = [] /\ e_resps s = [] /\ e_open s = false end.
Lemma R_trace x s : R x s -> e_trace s = trace_of x.
Proof. destruct x as [s0|tr]; cbn [R trace_of]; [intros ->; reflexivity|intros (A & _); exact A]. Qed.
Lemma R_log o x s : R x s -> R (flog o x) (log o s).
Proof. destruct x as [s0|tr]; cbn [R flog]; [intros ->; reflexivity|intros (A & B & C & D)]. unfold log. cbn. rewrite A. auto. Qed.
Lemma R_free x s : R x s -> R (ffree x) (ep_close s).
Proof.
  destruct x as [s0|tr]; cbn [R ffree]; [intros ->; repeat split|intros (A & B & C & D)]. unfold ep_close. cbn [e_trace e_reqs e_resps e_open]. rewrite B, C. auto.
Qed.
Definition sim (f : fep -> res fep) (g : ep -> res ep) : Prop := forall x s y, R x s -> f x = Ok y -> exists s', g s = Ok s' /\ R y s'.
Lemma sim_bind (r : res fep) (r' : res ep) f g y : (forall x, r = Ok x -> exists s, r' = Ok s /\ R x s) -> sim f g -> bind r f = Ok y -> exists s', bind r' g = Ok s' /\ R y s'.
Proof. intros H Hf E. apply bind_ok in E as (x & E1 & E2). destruct (H x E1) as (s & -> & Hr). exact (Hf x s y Hr E2). Qed.
Lemma live_sim (r : res ep) y : live r = Ok y -> exists s, r = Ok s /\ R y s.
Proof. intros H. apply bind_ok in H as (s & -> & [= <-]). exists s. split; reflexivity. Qed.
Lemma with_ep_sim (f : ep -> res fep) (g : ep -> res ep) : (forall s y, f s = Ok y -> exists s', g s = Ok s' /\ R y s') -> sim (with_ep f) g.
Proof. intros H x s y Hr E. destruct x as [s0|tr]; [|discriminate]. cbn [R] in Hr. subst s0. exact (H s y E). Qed.

Lemma fep_tx_sim c cb g s to h ies has_cb snd child y : sim cb g -> fep_tx c cb s to h ies has_cb snd child = Ok y -> exists s', ep_tx c g s to h ies has_cb snd = Ok s' /\ R y s'.
Proof.
  intros H. unfold fep_tx, ep_tx. cbv zeta.
  assert (F : forall (b : bool) s1 s0 id y, (x <- (if b then cb (Live s0) else Ok (Live s1)) ;; x <- fmsg_free child id x ;; Ok (flog (ORet id false) x)) = Ok y ->
     exists s', (s <- (if b then g s0 else Ok s1) ;; Ok (log (ORet id false) (log (OFree id) s))) = Ok s' /\ R y s').
  { intros b s1 s0 id y0 E. refine (sim_bind _ _ _ (fun s => Ok (log (ORet id false) (log (OFree id) s))) _ _ _ E).
    - intros x. destruct b; [intros Ex; exact (H (Live s0) s0 x eq_refl Ex)|intros [= <-]; exists s1; split; reflexivity].
    - intros x s2 y1 Hr E1. apply bind_ok in E1 as (x1 & E1 & [= <-]). assert (x1 = flog (OFree id) x) as -> by (destruct x; cbn [fmsg_free] in E1; [congruence|destruct child; congruence]).
      eexists; split; [reflexivity|]. apply R_log, R_log, Hr. }
  destruct (encode_msg _ _) as [bs|e|u]; [|apply F|discriminate].
  destruct (send_data _ _ _ _ _) as [s1 []]; [|apply F].
  unfold fqueue_add, queue_add. cbn [hd_type]. intros E. refine (sim_bind _ _ _ (fun s => Ok (log _ s)) _ _ _ E).
  - intros x. destruct ((c_n1 c =? 0) || (c_t1 c =? 0)).
    + destruct (negb _ && has_cb); [intros Ex; exact (H (Live _) _ x eq_refl Ex)|intros [= <-]; eexists; split; reflexivity].
    + cbn [live bind]. intros [= <-]. eexists; split; reflexivity.
  - intros x s2 y1 Hr [= <-]. eexists; split; [reflexivity|]. apply R_log, Hr.
Qed.
Lemma frun_sim c a : sim (frun_call c a) (run_call c (as_call a)).
Proof.
  induction a as [|to h ies has_cb snd child k IH|a] using fcall_ind'; intros x s y Hr.
  - intros [= <-]. eexists. split; [reflexivity|]. apply R_free, Hr.
  - rewrite frun_call_tx. cbn [as_call]. rewrite run_call_tx. revert x s y Hr. apply with_ep_sim. intros s y. apply fep_tx_sim. clear s y.
    induction IH as [|a k Ha Hk IHk]; intros x s y Hr E; [injection E as <-; exists s; split; [reflexivity|exact Hr]|].
    cbn [frun_calls map run_calls] in *. refine (sim_bind _ _ _ (run_calls c (map as_call k)) _ _ IHk E). intros x1. apply Ha, Hr.
  - revert x s y Hr. apply with_ep_sim. intros s y. apply live_sim.
Qed.
Lemma fruns_sim c k : sim (frun_calls c k) (run_calls c (map as_call k)).
Proof.
  induction k as [|a k IH]; intros x s y Hr E; [injection E as <-; exists s; split; [reflexivity|exact Hr]|].
  cbn [frun_calls map run_calls] in *. refine (sim_bind _ _ _ (run_calls c (map as_call k)) _ _ IH E). intros x1. apply frun_sim, Hr.
Qed.
Lemma fhandle_sim c s from h ies v y : fhandle_rx c s from h ies v = Ok y -> exists s', handle_rx c s from h ies (as_env v) = Ok s' /\ R y s'.
Proof.
  unfold fhandle_rx, handle_rx. cbn [as_env v_hb v_ctx v_resp v_rx v_rc1 v_resend].
  destruct (if hd_type h =? msgt_heartbeat_req then _ else _) as [s1|e|u]; cbn [bind]; [|discriminate|discriminate].
  destruct (queue_find _ h) as [q|]; intros E.
  - refine (sim_bind _ _ _ (fun s => _) _ (fun x Ex => fruns_sim c _ (Live s1) s1 x eq_refl Ex) _ E). apply with_ep_sim. clear E y. intros s2 y.
    destruct (negb (is_response (hd_type h))); [destruct (has_id _ _); [intros [= <-]; eexists; split; reflexivity|discriminate]|]. destruct (negb (has_id _ _)); [discriminate|]. intros E.
    refine (sim_bind _ _ _ (fun s => _) _ _ _ E).
    + intros x. destruct (q_cb q); [apply fruns_sim; reflexivity|intros [= <-]; eexists; split; reflexivity].
    + clear E y. intros x s3 y Hr E. refine (sim_bind _ _ _ (queue_del_req (q_id q)) _ _ _ E).
      * intros x1. destruct (negb (q_cb q) || fv_rc1 v); [|intros [= <-]; exists s3; split; [reflexivity|exact Hr]].
        clear E; revert x s3 x1 Hr. apply with_ep_sim. intros s4 y1. apply fruns_sim. reflexivity.
      * apply with_ep_sim. intros s4 y1. apply live_sim.
  - refine (sim_bind _ _ _ (fun s => _) _ (fun x Ex => fruns_sim c _ (Live s1) s1 x eq_refl Ex) _ E). apply with_ep_sim. clear E y. intros s2 y. apply fruns_sim. reflexivity.
Qed.
Lemma fall_sim c from l : forall vs, sim (fhandle_all c from l vs) (handle_all c from l (fun i => as_env (vs i))).
Proof.
  induction l as [|o l IH]; intros vs x s y Hr E; [injection E as <-; exists s; split; [reflexivity|exact Hr]|]. destruct o as [h ies|e|e|u]; cbn [fhandle_all handle_all] in *.
  - refine (sim_bind _ _ _ _ _ _ (IH (fun i => vs (S i))) E). intros x1. clear E; revert x s x1 Hr. apply with_ep_sim. intros s1 y1. apply fhandle_sim.
  - exact (IH (fun i => vs (S i)) x s y Hr E).
  - injection E as <-. exists s; split; [reflexivity|exact Hr].
  - discriminate.
Qed.
Lemma freq_timer_sim c q snd k s y : freq_timer c q snd k s = Ok y -> exists s', req_timer c q snd (map as_call k) s = Ok s' /\ R y s'.
Proof.
  unfold freq_timer, req_timer. 
  assert (D : forall s0 y0, (x <- (if q_cb q then frun_calls c k (Live (log (OResp (q_id q) None) s0)) else Ok (Live s0));; fqueue_del (q_id q) x) = Ok y0 ->
    exists s', (s <- (if q_cb q then run_calls c (map as_call k) (log (OResp (q_id q) None) s0) else Ok s0);; queue_del_req (q_id q) s) = Ok s' /\ R y0 s').
  { intros s0 y0 E. refine (sim_bind _ _ _ (queue_del_req (q_id q)) _ _ _ E).
    - intros x. destruct (q_cb q); [apply fruns_sim; reflexivity|intros [= <-]; eexists; split; reflexivity].
    - apply with_ep_sim. intros s1 y1. apply live_sim. }
  destruct (q_n1 q =? 0); [apply D|]. destruct (send_data _ _ _ _ _) as [s1 []]; [intros [= <-]; eexists; split; reflexivity|apply D].
Qed.
Lemma fstep_sim c ev : sim (fun x => fstep c x ev) (fun s => step c s (as_event ev)).
Proof.
  intros x s y Hr E. destruct x as [s0|tr].
  - cbn [R] in Hr. subst s0. destruct ev as [a|from d vs|dt|id snd k]; cbn [fstep as_event step] in *.
    + exact (frun_sim c a (Live s) s y eq_refl E).
    + destruct (e_open s); [exact (fall_sim c from _ vs (Live s) s y eq_refl E)|injection E as <-; exists s; split; reflexivity].
    + injection E as <-. eexists; split; reflexivity.
    + destruct (find_id id (e_reqs s)) as [q|]; [destruct (q_dl q <=? e_now s); [exact (freq_timer_sim c q snd k s y E)|injection E as <-; eexists; split; reflexivity]|].
      destruct (find_id id (e_resps s)) as [q|]; [destruct (q_dl q <=? e_now s); [exact (live_sim _ _ E)|]|]; injection E as <-; eexists; split; reflexivity.
  - pose proof Hr as (A & B & C & D). destruct ev as [a|from d vs|dt|id snd k]; cbn [fstep as_event step] in *.
    + exact (frun_sim c a (Gone tr) s y Hr E).
    + injection E as <-. rewrite D. exists s. split; [reflexivity|exact Hr].
    + injection E as <-. eexists. split; [reflexivity|]. exact Hr.
    + injection E as <-. rewrite B, C. exists s. split; [reflexivity|exact Hr].
Qed.
Theorem free_is_close c evs : forall x s y, R x s -> frun c x evs = Ok y -> exists s', run c s (map as_event evs) = Ok s' /\ R y s'.
Proof.
  induction evs as [|ev evs IH]; intros x s y Hr E; [injection E as <-; exists s; split; [reflexivity|exact Hr]|].
  cbn [frun map run] in *. apply bind_ok in E as (x1 & E1 & E2). destruct (fstep_sim c ev x s x1 Hr E1) as (s1 & -> & Hr1). exact (IH x1 s1 y Hr1 E2).
Qed.

(* ---------------------------------------------------------------- where it may be called *)
Lemma find_matches s h : WF s -> (queue_find (if is_response (hd_type h) then e_reqs s else e_resps s) h = None <-> ~ matches s h).
Proof.
  intros W. unfold matches. split.
  - intros H (q & Hq & Hs). refine (queue_find_none _ _ _ H Hq _ Hs). destruct (is_response (hd_type h)); [exact (wf_rq s W q Hq)|exact (wf_rs s W q Hq)].
  - intros H. destruct (queue_find _ h) as [q|] eqn:E; [|reflexivity]. exfalso. apply H. unfold queue_find in E. apply find_some in E as [A B].
    apply andb_true_iff in B as [_ B]. apply N.eqb_eq in B. exists q. split; assumption.
Qed.
Lemma fruns_gone_has c k : forall s tr, frun_calls c k (Live s) = Ok (Gone tr) -> existsb has_free k = true.
Proof.
  intros s tr H. destruct (existsb has_free k) eqn:E; [reflexivity|]. rewrite (fruns_live c k E) in H. apply bind_ok in H as (s1 & _ & [=]).
Qed.
Lemma fqueue_del_live id x tr : fqueue_del id x <> Ok (Gone tr).
Proof. destruct x as [s|t]; [|discriminate]. cbn [fqueue_del with_ep]. unfold live. intros H. apply bind_ok in H as (s1 & _ & [=]). Qed.
Theorem released_by_rx_cb c s from h ies v tr : WF s -> fhandle_rx c s from h ies v = Ok (Gone tr) -> ~ matches s h /\ existsb has_free (fv_rx v) = true.
Proof.
  intros W. unfold fhandle_rx. intros E. apply bind_ok in E as (s1 & E0 & E).
  destruct (hb_queues s from h (mkEnv (fv_hb v) true [] [] true []) s1 W E0) as (Q1 & Q2 & _).
  rewrite Q1, Q2 in E. rewrite <- (find_matches s h W). destruct (queue_find _ h) as [q|].
  - exfalso. apply bind_ok in E as (x & _ & E). destruct x as [s2|t]; [|discriminate]. cbn [with_ep] in E.
    destruct (negb (is_response (hd_type h))); [destruct (has_id _ _); discriminate|]. destruct (negb (has_id _ _)); [discriminate|].
    apply bind_ok in E as (x & _ & E). apply bind_ok in E as (y & _ & E). exact (fqueue_del_live _ _ _ E).
  - split; [reflexivity|]. apply bind_ok in E as (x & _ & E). destruct x as [s2|t]; [|discriminate]. exact (fruns_gone_has _ _ _ _ E).
Qed.
Lemma fall_gone c from l : (forall l1 l2 e, l = l1 ++ RxBad e :: l2 -> l2 = []) -> forall vs tr y, fhandle_all c from l vs (Gone tr) = Ok y <-> Forall not_dispatched l /\ y = Gone tr.
Proof.
  induction l as [|o l IH]; intros Hs vs tr y; cbn [fhandle_all].
  - split; [intros [= <-]; split; [constructor|reflexivity]|intros [_ ->]; reflexivity].
  - assert (Hs' : forall l1 l2 e, l = l1 ++ RxBad e :: l2 -> l2 = []) by (intros l1 l2 e E; apply (Hs (o :: l1) l2 e); rewrite E; reflexivity).
    destruct o as [h ies|e|e|u].
    + split; [discriminate|]. intros [A _]. inversion A as [|? ? B _]; subst. destruct B as [(e & [=])|(e & [=])].
    + rewrite (IH Hs'). split; intros [A B]; split; try exact B; [constructor; [left; eexists; reflexivity|exact A]|inversion A; assumption].
    + rewrite (Hs [] l e eq_refl). split; [intros [= <-]; split; [|reflexivity]|intros [_ ->]; reflexivity]. constructor; [right; eexists; reflexivity|constructor].
    + split; [discriminate|]. intros [A _]. inversion A as [|? ? B _]; subst. destruct B as [(e & [=])|(e & [=])].
Qed.
Lemma fall_app c from pre l : (forall e, ~ In (RxBad e) pre) -> forall vs x,
  fhandle_all c from (pre ++ l) vs x = (y <- fhandle_all c from pre vs x ;; fhandle_all c from l (fun i => vs (length pre + i)%nat) y).
Proof.
  induction pre as [|o pre IH]; intros Hp vs x; [reflexivity|]. assert (Hp' : forall e, ~ In (RxBad e) pre) by (intros e H; apply (Hp e); right; exact H).
  destruct o as [h ies|e|e|u]; cbn [app fhandle_all].
  - destruct (with_ep _ x) as [y|e|u]; cbn [bind]; [|reflexivity|reflexivity]. rewrite (IH Hp'). reflexivity.
  - rewrite (IH Hp'). reflexivity.
  - exfalso. apply (Hp e). left. reflexivity.
  - reflexivity.
Qed.
Lemma fall_released c from l : (forall l1 l2 e, l = l1 ++ RxBad e :: l2 -> l2 = []) -> forall vs s tr, fhandle_all c from l vs (Live s) = Ok (Gone tr) <->
  exists pre h ies post s1, l = pre ++ RxMsg h ies :: post /\ Forall not_dispatched post
    /\ fhandle_all c from pre vs (Live s) = Ok (Live s1) /\ fhandle_rx c s1 from h ies (vs (length pre)) = Ok (Gone tr).
Proof.
  intros Hs vs s tr. split.
  - revert vs s. induction l as [|o l IH]; intros vs s; [discriminate|].
    assert (Hs' : forall l1 l2 e, l = l1 ++ RxBad e :: l2 -> l2 = []) by (intros l1 l2 e E; apply (Hs (o :: l1) l2 e); rewrite E; reflexivity).
    destruct o as [h ies|e|e|u]; cbn [fhandle_all with_ep]; [| |discriminate|discriminate].
    + intros E. apply bind_ok in E as (x & E1 & E2). destruct x as [s1|t].
      * destruct (IH Hs' _ _ E2) as (pre & h' & ies' & post & s2 & A & B & C & D). exists (RxMsg h ies :: pre), h', ies', post, s2. rewrite A. split; [reflexivity|]. split; [exact B|].
        split; [cbn [fhandle_all with_ep]; rewrite E1; exact C|exact D].
      * apply (fall_gone c from l Hs') in E2 as [A [= <-]]. exists [], h, ies, l, s. do 3 (split; [reflexivity||exact A|]). exact E1.
    + intros E. destruct (IH Hs' _ _ E) as (pre & h' & ies' & post & s2 & A & B & C & D). exists (RxDrop e :: pre), h', ies', post, s2. rewrite A. split; [reflexivity|]. split; [exact B|].
      split; [exact C|exact D].
  - intros (pre & h & ies & post & s1 & -> & B & C & D). rewrite fall_app.
    + rewrite C. cbn [bind fhandle_all with_ep]. rewrite Nat.add_0_r, D. cbn [bind]. apply fall_gone; [|split; [exact B|reflexivity]].
      intros l1 l2 e E. apply (Hs (pre ++ RxMsg h ies :: l1) l2 e). rewrite E, <- app_assoc. reflexivity.
    + intros e He. apply in_split in He as (l1 & l2 & ->). specialize (Hs l1 (l2 ++ RxMsg h ies :: post) e). rewrite <- app_assoc in Hs. specialize (Hs eq_refl). destruct l2; discriminate.
Qed.
Lemma fall_wf c from pre vs s s1 : WF s -> fhandle_all c from pre vs (Live s) = Ok (Live s1) -> WF s1.
Proof.
  intros W E. destruct (fall_sim c from pre vs (Live s) s (Live s1) eq_refl E) as (s' & A & ->).
  exact (adv_wf _ _ _ _ _ (handle_all_adv c DT true from pre _ s s1 W (fun C => match Bool.diff_true_false C with end) A)).
Qed.
Theorem released_on_rx c s from d vs tr : reachable c s ->
  (fstep c (Live s) (FvRx from d vs) = Ok (Gone tr) <->
   e_open s = true /\ exists pre h ies post s1, rx_datagram d = pre ++ RxMsg h ies :: post /\ Forall not_dispatched post
     /\ fhandle_all c from pre vs (Live s) = Ok (Live s1) /\ ~ matches s1 h /\ fhandle_rx c s1 from h ies (vs (length pre)) = Ok (Gone tr)).
Proof.
  intros H. pose proof (reach_wf c s H) as W. cbn [fstep].
  assert (Hs : forall l1 l2 e, rx_datagram d = l1 ++ RxBad e :: l2 -> l2 = []) by (intros l1 l2 e X; unfold rx_datagram, rx_data in X; exact (rx_loop_stop _ _ _ _ _ _ X)).
  destruct (e_open s); [|split; [discriminate|intros [[=] _]]]. rewrite (fall_released c from _ Hs). split.
  - intros (pre & h & ies & post & s1 & A & B & C & D). split; [reflexivity|]. exists pre, h, ies, post, s1. do 3 (split; [assumption|]). split; [|exact D].
    exact (proj1 (released_by_rx_cb _ _ _ _ _ _ _ (fall_wf _ _ _ _ _ _ W C) D)).
  - intros (_ & pre & h & ies & post & s1 & A & B & C & _ & D). exists pre, h, ies, post, s1. auto.
Qed.
Theorem rx_cb_releases c s from h ies v : reachable c s -> ~ matches s h -> fv_ctx v = [] -> releases c (fv_rx v) ->
  exists tr, fhandle_rx c s from h ies v = Ok (Gone tr).
Proof.
  intros H M Hc Hrel. pose proof (reach_wf c s H) as W. unfold fhandle_rx.
  match goal with |- context [bind ?x _] => assert (exists s1, x = Ok s1) as (s1 & E1) end.
  { dif Eh; [|eexists; reflexivity]. apply tx_data_total. intros u. rewrite hb_resp_enc. discriminate. }
  rewrite E1. cbn [bind]. destruct (hb_queues s from h (mkEnv (fv_hb v) true [] [] true []) s1 W E1) as (Q1 & Q2 & _).
  rewrite Q1, Q2, (proj2 (find_matches s h W) M), Hc. cbn [frun_calls bind with_ep]. apply Hrel.
Qed.
Theorem in_resp_cb c s from h ies v : reachable c s -> is_response (hd_type h) = true -> matches s h ->
  (forall q, In q (e_reqs s) -> hd_seq (q_h q) = hd_seq h -> q_cb q = true) -> fv_ctx v = [] -> releases c (fv_resp v) ->
  fhandle_rx c s from h ies v = UB DoubleFree.
Proof.
  intros H Hr M Hcb Hc Hrel. pose proof (reach_wf c s H) as W. unfold fhandle_rx.
  replace (hd_type h =? msgt_heartbeat_req) with false by (symmetry; apply N.eqb_neq; intros E; rewrite E in Hr; discriminate). cbn [bind]. rewrite Hr.
  destruct (queue_find (e_reqs s) h) as [q|] eqn:E.
  2:{ exfalso. pose proof (find_matches s h W) as F. rewrite Hr in F. apply F in E. exact (E M). }
  unfold queue_find in E. apply find_some in E as [A B]. apply andb_true_iff in B as [_ B]. apply N.eqb_eq in B. rewrite Hc. cbn [frun_calls bind with_ep negb].
  assert (Hi : has_id (q_id q) (e_reqs s) = true) by (apply existsb_exists; exists q; split; [exact A|apply N.eqb_refl]). rewrite Hi. cbn [negb]. rewrite (Hcb q A B).
  destruct (Hrel (log (OResp (q_id q) (Some (h, ies))) s)) as (tr & ->). cbn [bind negb orb]. destruct (fv_rc1 v); reflexivity.
Qed.
Theorem in_ctx_cb c s from h ies v : reachable c s -> releases c (fv_ctx v) -> fhandle_rx c s from h ies v = UB DoubleFree.
Proof.
  intros H Hrel. pose proof (reach_wf c s H) as W. unfold fhandle_rx.
  match goal with |- context [bind ?x _] => assert (exists s1, x = Ok s1) as (s1 & E1) end.
  { dif Eh; [|eexists; reflexivity]. apply tx_data_total. intros u. rewrite hb_resp_enc. discriminate. }
  rewrite E1. cbn [bind]. destruct (Hrel s1) as (tr & ->). destruct (queue_find _ h); reflexivity.
Qed.
Theorem timer_never_releases c s id snd k tr : fstep c (Live s) (FvTimer id snd k) <> Ok (Gone tr).
Proof.
  cbn [fstep]. destruct (find_id id (e_reqs s)) as [q|].
  - destruct (q_dl q <=? e_now s); [|discriminate]. unfold freq_timer.
    assert (D : forall s, (x <- (if q_cb q then frun_calls c k (Live (log (OResp (q_id q) None) s)) else Ok (Live s));; fqueue_del (q_id q) x) <> Ok (Gone tr)).
    { intros s1 E. apply bind_ok in E as (x & _ & E). exact (fqueue_del_live _ _ _ E). }
    destruct (q_n1 q =? 0); [apply D|]. destruct (send_data _ _ _ _ _) as [s1 []]; [discriminate|apply D].
  - destruct (find_id id (e_resps s)) as [q|]; [|discriminate]. destruct (q_dl q <=? e_now s); [|discriminate]. intros E. apply bind_ok in E as (x & _ & [=]).
Qed.
Theorem timeout_cb_releases c s q snd k : reachable c s -> In q (e_reqs s) -> q_cb q = true -> q_dl q <= e_now s -> q_n1 q = 0 \/ snd = false \/ e_open s = false -> releases c k ->
  fstep c (Live s) (FvTimer (q_id q) snd k) = UB DoubleFree.
Proof.
  intros H Hq Hcb Hdl Hend Hrel. pose proof (reach_wf c s H) as W. cbn [fstep]. pose proof (wf_ent_req DT s q W Hq) as Ent. unfold ent in Ent. injection Ent as -> _.
  replace (q_dl q <=? e_now s) with true by (symmetry; apply N.leb_le; exact Hdl). unfold freq_timer.
  assert (D : forall s, (x <- (if q_cb q then frun_calls c k (Live (log (OResp (q_id q) None) s)) else Ok (Live s));; fqueue_del (q_id q) x) = UB DoubleFree).
  { intros s1. rewrite Hcb. destruct (Hrel (log (OResp (q_id q) None) s1)) as (tr & ->). reflexivity. }
  destruct (q_n1 q =? 0) eqn:E0; [apply D|]. destruct (send_data _ _ _ _ _) as [s1 b] eqn:Es. destruct b; [|apply D].
  exfalso. apply N.eqb_neq in E0. unfold send_data in Es. cbn [e_open log] in Es. destruct Hend as [?|[->|O]]; [congruence| |].
  - destruct (e_open _); discriminate.
  - cbn in Es. rewrite O in Es. discriminate.
Qed.
Theorem failed_tx_releases c s to h ies snd (child : bool) k : tx_safe c h ies -> is_response (hd_type h) = false -> snd = false \/ e_open s = false -> releases c k ->
  if child then frun_call c (FTx to h ies true snd child k) (Live s) = UB DoubleFree
  else exists tr, frun_call c (FTx to h ies true snd child k) (Live s) = Ok (Gone tr).
Proof.
  intros Hs Hr Hf Hrel. rewrite frun_call_tx. cbn [with_ep]. unfold fep_tx. cbv zeta. rewrite Hr. cbn [negb andb].
  set (s1 := log _ (set_seq _ _)). set (nr := next_seq_nr _).
  assert (F : forall s2 id, if child then (x <- frun_calls c k (Live s2) ;; x <- fmsg_free child id x ;; Ok (flog (ORet id false) x)) = UB DoubleFree else
    exists tr, (x <- frun_calls c k (Live s2) ;; x <- fmsg_free child id x ;; Ok (flog (ORet id false) x)) = Ok (Gone tr)).
  { intros s2 id. destruct (Hrel s2) as (tr & ->). destruct child; [reflexivity|eexists; reflexivity]. }
  destruct (encode_msg _ _) as [bs|e|u] eqn:E; [|apply F|exfalso; refine (Hs nr _ u E); rewrite Hr; exact (ctr_range (2 ^ 24) eq_refl next_seq_nr next_seq_nr_eq _)].
  destruct (send_data _ _ _ _ _) as [s2 b] eqn:Es. destruct b; [|apply F].
  exfalso. unfold send_data in Es. change (e_open s1) with (e_open s) in Es.
  destruct Hf as [->|O]; [|rewrite O in Es; discriminate]. rewrite andb_false_r in Es. discriminate.
Qed.
Theorem no_wait_releases c s to h ies (child : bool) k : is_response (hd_type h) = false -> e_open s = true -> c_n1 c = 0 \/ c_t1 c = 0 -> releases c k ->
  (exists bs, encode_msg (mkHdr (hd_version h) (hd_type h) (hd_prio h) (hd_seid h) (next_seq_nr (e_seq s))) (put_node_id (c_node c) (hd_type h) ies) = Ok bs) ->
  exists tr, frun_call c (FTx to h ies true true child k) (Live s) = Ok (Gone tr).
Proof.
  intros Hr O Hz Hrel (bs & E). rewrite frun_call_tx. cbn [with_ep]. unfold fep_tx. cbv zeta. rewrite Hr. cbn [negb andb hd_type]. cbn [e_seq set_next log].
  change (e_seq (log (OTx (e_next s) to h ies true) (set_next (e_next s + 1) s))) with (e_seq s). rewrite E.
  unfold send_data. change (e_open (log (OSeq (Some (e_next s)) (next_seq_nr (e_seq s))) (set_seq (next_seq_nr (e_seq s)) (log (OTx (e_next s) to h ies true) (set_next (e_next s + 1) s))))) with (e_open s).
  rewrite O. cbn [andb]. unfold fqueue_add. cbn [hd_type]. rewrite Hr. cbn [negb andb].
  replace ((c_n1 c =? 0) || (c_t1 c =? 0)) with true by (symmetry; apply orb_true_iff; destruct Hz; [left|right]; apply N.eqb_eq; assumption).
  match goal with |- context [frun_calls c k (Live ?x)] => destruct (Hrel x) as (tr & ->) end. eexists. reflexivity.
Qed.

(* ---------------------------------------------------------------- once *)
Theorem history_as_close c time evs x : frun c (Live (ep_create time)) evs = Ok x ->
  exists s, run c (ep_create time) (map as_event evs) = Ok s /\ e_trace s = trace_of x /\ match x with Live s' => s' = s | Gone _ => is_busy s = false /\ e_resps s = [] /\ e_open s = false end.
Proof.
  intros E. destruct (free_is_close c evs (Live (ep_create time)) (ep_create time) x eq_refl E) as (s & A & B). exists s. split; [exact A|]. split; [exact (R_trace x s B)|].
  destruct x as [s0|tr]; [cbn [R] in B; congruence|]. destruct B as (_ & B & C & D). unfold is_busy. rewrite B, ?C. auto.
Qed.
Theorem all_released c time evs tr id to h ies cb : frun c (Live (ep_create time)) evs = Ok (Gone tr) -> c_n1 c <> 0 -> c_t1 c <> 0 -> In (OTx id to h ies cb) tr ->
  count (is_free id) tr = 1.
Proof.
  intros E Hn Ht Hi. destruct (free_is_close c evs (Live (ep_create time)) (ep_create time) _ eq_refl E) as (s & A & T & B & C & D).
  assert (H : reachable c s) by (exists time, (map as_event evs); exact A). rewrite <- T in Hi.
  pose proof (freed_after_close c s id to h ies cb H Hn Ht Hi) as F. unfold ep_close in F. cbn [e_trace] in F. rewrite B, C in F. cbn [app map rev] in F. rewrite T in F. exact F.
Qed.
Theorem frun_app c a : forall b x, frun c x (a ++ b) = (y <- frun c x a ;; frun c y b).
Proof. induction a as [|ev a IH]; intros b x; [reflexivity|]. cbn [app frun]. destruct (fstep c x ev); cbn [bind]; [apply IH|reflexivity|reflexivity]. Qed.
Theorem after_free c x a b tr : frun c x a = Ok (Gone tr) ->
  (existsb uses b = false -> frun c x (a ++ b) = Ok (Gone tr)) /\ (existsb uses b = true -> exists u, frun c x (a ++ b) = UB u).
Proof.
  intros E. rewrite frun_app, E. cbn [bind]. pose proof (gone_run c b tr) as G. destruct (frun c (Gone tr) b) as [y|e|u]; [|contradiction|].
  - destruct G as [-> G]. split; [reflexivity|]. rewrite G. discriminate.
  - split; [rewrite G; discriminate|]. intros _. exists u. reflexivity.
Qed.
