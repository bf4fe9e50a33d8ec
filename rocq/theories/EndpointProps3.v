(* EndpointProps3.v -- lemmas behind the property theorems C38 .. C41, C52, C53: heartbeats, closing, absence of undefined
   behaviour, what is sent *)
From Verif Require Import Base BaseProofs GtlvModel DecEncModel DecEncSpec IesModel IesSpec IesProofs TablesModel MsgModel MsgSpec MsgProofs RxProofs MsgEncProofs EndpointModel EndpointSpec EndpointProofs EndpointRun EndpointLife EndpointFinal EndpointProps EndpointExt EndpointProps2.

(* ---------------------------------------------------------------- C38 *)

Lemma hb_resp_enc nr r : encode_msg (mkHdr 1 msgt_heartbeat_resp None None nr) [[VLeaf (IvNum r)]] = Ok (hb_resp_bytes nr r).
Proof. vm_compute. reflexivity. Qed.
Lemma hb_req_enc nr r : exists bs, encode_msg (mkHdr 1 msgt_heartbeat_req None None nr) [[VLeaf (IvNum r)]] = Ok bs.
Proof. eexists. vm_compute. reflexivity. Qed.

Theorem heartbeat_answered c s from h ies v s' : hd_type h = msgt_heartbeat_req -> e_open s = true -> v_hb v = true ->
  handle_rx c s from h ies v = Ok s' ->
  exists new, e_trace s' = new ++ OSend None (e_now s) from (hb_resp_bytes (hd_seq h) (e_recov s)) :: e_trace s.
Proof.
  intros Ht Ho Hv E. unfold handle_rx in E. rewrite Ht, N.eqb_refl in E. unfold tx_data in E. rewrite hb_resp_enc in E.
  unfold send_data in E at 1. rewrite Ho, Hv in E. cbn [andb fst bind] in E. set (s1 := log _ s) in E.
  assert (X : forall s1 s2, ext (fun _ => True) true true s1 s2 -> exists new, e_trace s2 = new ++ e_trace s1).
  { intros a b [(n & A & _) _]. exists n. exact A. }
  change (exists new, e_trace s' = new ++ e_trace s1). apply X. rewrite <- Ht in E. clear X.
  revert E. generalize s1. clear. intros s E.
  assert (Fl : forall k, flags_oks true true k) by (intros k; split; discriminate).
  assert (FE : flags_env true true v) by (split; discriminate).
  assert (Hh : forall t : N, (t =? msgt_heartbeat_req) = true -> is_response t = false) by (intros t H; apply N.eqb_eq in H; subst t; reflexivity).
  destruct (queue_find _ h) as [q|]; inv_bind E; (eapply ext_trans; [apply to_xa; eapply run_calls_ext; [apply Fl|eassumption]|]).
  - dif_in E R.
    + dif_in E Hx; [|discriminate]. injection E as <-. apply to_xa, send_ext.
    + dif_in E Hx; [discriminate|]. inv_bind E. inv_bind E.
      match goal with Ha : (if q_cb q then _ else _) = Ok ?x, Hb : (if negb (q_cb q) || _ then _ else _) = Ok ?y |- _ =>
        eapply ext_trans with (s2 := x); [dif_in Ha Ec; [eapply xa_calls; [apply Fl| |exact Ha]; reflexivity|injection Ha as <-; apply ext_refl]|];
        eapply ext_trans with (s2 := y); [dif_in Hb Ed; [eapply xa_calls; [apply Fl| |exact Hb]; reflexivity|injection Hb as <-; apply ext_refl]|] end.
      eapply del_req_ext. exact E.
  - eapply xa_calls; [apply Fl| |exact E]. reflexivity.
Qed.

Lemma rx_loop_stop f : forall m n l1 l2 e, rx_loop f m n = l1 ++ RxBad e :: l2 -> l2 = [].
Proof.
  induction f as [|f IH]; intros m n l1 l2 e; cbn [rx_loop]; dif E; intros H; try (destruct l1; discriminate).
  - destruct l1 as [|? [|]]; discriminate.
  - destruct (decode_header m n) as [d|x|u].
    + destruct (rx_tlv d m) as [h ies|x|x|u] eqn:T.
      4:{ destruct l1 as [|? [|]]; discriminate. }
      3:{ exfalso. unfold rx_tlv in T. destruct (decode_tlv _ _ _); discriminate. }
      all: destruct l1 as [|o l1]; [discriminate|]; injection H as _ H; exact (IH _ _ _ _ _ H).
    + destruct l1 as [|? [|]]; [injection H as _ <-; reflexivity|discriminate|discriminate].
    + destruct l1 as [|? [|]]; discriminate.
Qed.

Lemma handle_all_hb c from l : forall vs s s' h ies, (forall i, env_has is_close (vs i) = false /\ v_hb (vs i) = true) -> e_open s = true -> WF s ->
  (forall l1 l2 e, l = l1 ++ RxBad e :: l2 -> l2 = []) ->
  handle_all c from l vs s = Ok s' -> In (RxMsg h ies) l -> hd_type h = msgt_heartbeat_req ->
  exists a b, e_trace s' = a ++ OSend None (e_now s) from (hb_resp_bytes (hd_seq h) (e_recov s)) :: b ++ e_trace s.
Proof.
  induction l as [|o l IH]; intros vs s s' h ies Hv Ho W Hst E Hin Ht; [destruct Hin|].
  assert (Hst' : forall l1 l2 e, l = l1 ++ RxBad e :: l2 -> l2 = []) by (intros l1 l2 e ->; exact (Hst (o :: l1) l2 e eq_refl)).
  assert (Hv' : forall i, env_has is_close (vs (S i)) = false /\ v_hb (vs (S i)) = true) by (intros i; apply Hv).
  destruct o as [h1 ies1|e|e|u]; cbn [handle_all] in E.
  - inv_bind E. rename x into s1. match goal with Hs : handle_rx _ _ _ _ _ _ = Ok s1 |- _ => rename Hs into E1 end. destruct (Hv 0%nat) as [V1 V2].
    assert (F1 : flags_env false true (vs 0%nat)) by (split; [intros _; exact V1|discriminate]).
    destruct (handle_rx_ext c false true s from h1 ies1 _ s1 F1 E1) as [(n1 & A1 & _) A2].
    pose proof (handle_rx_adv c DT false s from h1 ies1 _ s1 W (fun _ => V1) E1) as Ad.
    assert (Hn : e_now s1 = e_now s) by (destruct (handle_rx_newq _ _ _ _ _ _ _ E1) as [X _]; exact X).
    assert (Fa : forall i, flags_env true true (vs (S i))) by (intros i; split; discriminate).
    destruct (handle_all_ext c true true from l _ _ _ Fa E) as [(n2 & B1 & _) _].
    destruct Hin as [Hin|Hin].
    + injection Hin as -> ->. destruct (heartbeat_answered c s from h ies (vs 0%nat) s1 Ht Ho V2 E1) as (new & T).
      exists (n2 ++ new), []. rewrite B1, T, <- app_assoc. reflexivity.
    + destruct (IH _ _ _ h ies Hv' (eq_trans (A2 eq_refl) Ho) (adv_wf _ _ _ _ _ Ad) Hst' E Hin Ht) as (a & b & T).
      exists a, (b ++ n1). rewrite T, A1, Hn, (adv_recov _ _ _ _ _ Ad), <- app_assoc. reflexivity.
  - destruct Hin as [Hin|Hin]; [discriminate|]. exact (IH _ _ _ h ies Hv' Ho W Hst' E Hin Ht).
  - pose proof (Hst [] l e eq_refl) as ->. destruct Hin as [Hin|[]]. discriminate.
  - discriminate.
Qed.
(* every Heartbeat Request that is decoded from a datagram is answered *)
Theorem heartbeats_in_datagram c s from d vs s' h ies : reachable c s -> e_open s = true ->
  (forall i, env_has is_close (vs i) = false /\ v_hb (vs i) = true) ->
  step c s (ERx from d vs) = Ok s' -> In (RxMsg h ies) (rx_datagram d) -> hd_type h = msgt_heartbeat_req ->
  exists a b, e_trace s' = a ++ OSend None (e_now s) from (hb_resp_bytes (hd_seq h) (e_recov s)) :: b ++ e_trace s.
Proof.
  intros H Ho Hv E Hin Ht. cbn [step] in E. rewrite Ho in E. eapply handle_all_hb; try eassumption; [exact (reach_wf c s H)|].
  intros l1 l2 e X. unfold rx_datagram, rx_data in X. exact (rx_loop_stop _ _ _ _ _ _ X).
Qed.

(* ---------------------------------------------------------------- C39 *)
Theorem recovery_time c time evs s : run c (ep_create time) evs = Ok s -> e_recov s = (25567 * 86400 + time) mod 2 ^ 32.
Proof.
  intros E. pose proof (run_adv c true evs _ s (e_now s) (wf_create time) (fun C => match Bool.diff_true_false C with end) E (N.le_refl _)) as A.
  rewrite (adv_recov _ _ _ _ _ A). cbn [e_recov ep_create]. change (25567 * 86400) with 2208988800.
  rewrite N.add_mod_idemp_l by discriminate. f_equal. lia.
Qed.

(* ---------------------------------------------------------------- C40 *)
Lemma close_trace id s : WF s -> tr_of id (e_trace (ep_close s)) = (if has_id id (e_reqs s ++ e_resps s) then [OFree id] else []) ++ tr_of id (e_trace s).
Proof. intros H. cbn. unfold tr_of. rewrite filter_app. f_equal. apply (tr_frees DT). apply wf_nodup. assumption. Qed.
Theorem close_effect c s : reachable c s ->
  e_open (ep_close s) = false /\ is_busy (ep_close s) = false
  /\ forall id, tr_of id (e_trace (ep_close s)) = (if has_id id (e_reqs s ++ e_resps s) then [OFree id] else []) ++ tr_of id (e_trace s).
Proof. intros H. split; [reflexivity|]. split; [reflexivity|]. intros id. apply close_trace. exact (reach_wf c s H). Qed.
(* nothing ever happens to a message that is no longer with the endpoint *)
Theorem gone_is_silent c s evs s' id : reachable c s -> id < e_next s -> has_id id (e_reqs s ++ e_resps s) = false -> run c s evs = Ok s' ->
  tr_of id (e_trace s') = tr_of id (e_trace s).
Proof.
  intros H Hid Hg E. pose proof (run_adv c true evs s s' (e_now s') (reach_wf c s H) (fun C => match Bool.diff_true_false C with end) E (N.le_refl _)) as A.
  destruct (reach_known c s id H Hid) as (m & p & K).
  assert (P : in_phase s id m PGone).
  { unfold has_id in Hg. rewrite existsb_app, orb_false_iff in Hg. destruct Hg as [G1 G2]. fold (has_id id (e_reqs s)) in G1. fold (has_id id (e_resps s)) in G2. rewrite has_id_find in G1, G2.
    split; [destruct (find_id id (e_reqs s))|destruct (find_id id (e_resps s))]; congruence. }
  destruct (adv_old _ _ _ _ _ A id m PGone Hid P) as (p' & L & _).
  assert (G : tr_of id (e_trace s') = tr_of id (e_trace s) /\ p' = PGone); [|tauto].
  induction L as [|tr1 p1 tr2 p2 L IH Hs]; [tauto|]. destruct IH as [I1 ->]. inversion Hs; subst; congruence.
Qed.

(* ---------------------------------------------------------------- C41 *)
Theorem freed_at_most_once c s id : reachable c s -> count (is_free id) (e_trace s) <= 1.
Proof.
  intros H. destruct (N.lt_ge_cases id (e_next s)) as [Hid|Hid].
  - destruct (reach_known c s id H Hid) as (m & p & K). pose proof (known_obs _ _ _ _ _ _ _ K) as L. destruct p as [k dl|dl|].
    + destruct L as (_ & _ & _ & _ & L & _). obsfields. lia.
    + destruct L as (_ & _ & _ & _ & _ & L & _). obsfields. lia.
    + destruct (mi_resp m) eqn:R.
      * destruct L as (_ & _ & L & _). obsfields. lia.
      * destruct L as [(_ & L)|[L|(_ & _ & _ & _ & k & Hk & [L|[(Hk0 & L)|[L|(Hcl & L)]]])]]; obsfields; lia.
  - pose proof (wf_new s (reach_wf c s H) id Hid) as Hn. rewrite <- (count_tr_of _ id), Hn; [unfold count; cbn; unfold lenN; cbn; lia|].
    intros o. destruct o; cbn; congruence.
Qed.
Theorem freed_after_close c s id to h ies cb : reachable c s -> c_n1 c <> 0 -> c_t1 c <> 0 -> In (OTx id to h ies cb) (e_trace s) ->
  count (is_free id) (e_trace (ep_close s)) = 1.
Proof.
  intros H Hn Ht Htx. assert (Hid : id < e_next s) by (eapply wf_about; [exact (reach_wf c s H)|exact Htx|cbn; apply N.eqb_refl]).
  assert (H' : reachable c (ep_close s)) by (apply (reach_run c s [ECall CClose]); [exact H|reflexivity]).
  destruct (reach_known c _ id H' Hid) as (m & p & K). pose proof (known_obs _ _ _ _ _ _ _ K) as L. pose proof (kn_phase _ _ _ _ _ _ _ K) as P.
  destruct p as [k dl|dl|]; [destruct P; discriminate|destruct P; discriminate|]. destruct (mi_resp m).
  - destruct L as (_ & _ & L1 & _ & L & _). obsfields. destruct (N.eq_dec (count (is_free id) (e_trace (ep_close s))) 0) as [Z|Z]; [specialize (L Z); tauto|lia].
  - destruct L as [(L & _)|[L|(_ & _ & _ & _ & k & Hk & [L|[(Hk0 & L)|[L|(Hcl & L)]]])]]; [tauto|..]; obsfields; assumption.
Qed.

Lemma ep_tx_total c cb s to h ies has_cb snd : (forall s, exists s', cb s = Ok s') -> tx_safe c h ies -> exists s', ep_tx c cb s to h ies has_cb snd = Ok s'.
Proof.
  intros Hcb Hs. unfold ep_tx. cbv zeta. set (s1 := log (OTx _ _ _ _ _) _). set (nr := if is_response (hd_type h) then hd_seq h else next_seq_nr (e_seq s1)).
  set (s2 := if is_response (hd_type h) then s1 else _).
  assert (FAIL : forall (b : bool) s3, exists s4, (if b then cb (log (OResp (e_next s) None) s3) else Ok s3) = Ok s4) by (intros [|] s3; [apply Hcb|eexists; reflexivity]).
  assert (Hnr : if is_response (hd_type h) then nr = hd_seq h else 1 <= nr < 2 ^ 24).
  { unfold nr. destruct (is_response (hd_type h)); [reflexivity|]. exact (ctr_range (2 ^ 24) eq_refl next_seq_nr next_seq_nr_eq _). }
  pose proof (Hs nr Hnr) as Hes. destruct (encode_msg _ _) as [bs|e|u] eqn:En; [| |exfalso; exact (Hes u En)].
  - destruct (send_data s2 _ _ _ _) as [s3 [|]].
    + unfold queue_add. dif Ez.
      * destruct (FAIL (negb (is_response (hd_type h)) && has_cb) s3) as (s4 & E4). cbn [hd_type]. rewrite E4. eexists. reflexivity.
      * eexists. reflexivity.
    + destruct (FAIL (negb (is_response (hd_type h)) && has_cb) s3) as (s4 & E4). rewrite E4. eexists. reflexivity.
  - match goal with |- context [cb (log (OResp _ None) ?x)] => destruct (FAIL (negb (is_response (hd_type h)) && has_cb) x) as (s4 & E4) end. rewrite E4. eexists. reflexivity.
Qed.
Lemma tx_data_total s to h ies snd : enc_safe h ies -> exists s', tx_data s to h ies snd = Ok s'.
Proof. intros H. unfold tx_data. destruct (encode_msg h ies) eqn:E; [eexists; reflexivity|eexists; reflexivity|]. exfalso. exact (H _ E). Qed.
Lemma run_calls_total_list c k : Forall (fun a => call_safe c a -> forall s, exists s', run_call c a s = Ok s') k -> calls_safe c k ->
  forall s, exists s', run_calls c k s = Ok s'.
Proof.
  induction k as [|a k IH]; intros Hk Hs s; cbn; [eexists; reflexivity|]. inversion Hk as [|? ? Ha Hk']; subst. destruct Hs as [S1 S2].
  destruct (Ha S1 s) as (s1 & ->). cbn. apply IH; assumption.
Qed.
Lemma run_call_total c a : call_safe c a -> forall s, exists s', run_call c a s = Ok s'.
Proof.
  induction a as [to h ies has_cb snd k IH|to h ies snd|to snd|n| |ok] using call_ind'; intros Hs s.
  - rewrite run_call_tx. destruct Hs as [S1 S2]. apply ep_tx_total; [|exact S1]. apply run_calls_total_list; assumption.
  - apply tx_data_total. exact Hs.
  - cbn [run_call]. unfold tx_heartbeat_req. apply tx_data_total. intros u. match goal with |- encode_msg (mkHdr _ _ _ _ ?a) [[VLeaf (IvNum ?b)]] <> _ => destruct (hb_req_enc a b) as (bs & X) end. congruence.
  - eexists; reflexivity.
  - eexists; reflexivity.
  - eexists; reflexivity.
Qed.
Lemma run_calls_total c k s : calls_safe c k -> exists s', run_calls c k s = Ok s'.
Proof. intros H. apply run_calls_total_list; [|exact H]. apply Forall_forall. intros a _. apply run_call_total. Qed.

(* calls without close keep an entry *)
Lemma calls_keep c k s s' id : calls_have is_close k = false -> WF s -> id < e_next s -> run_calls c k s = Ok s' -> WF s' /\ e_next s <= e_next s' /\ ent id s' = ent id s.
Proof.
  intros Hc W Hid E. pose proof (run_calls_fr c DT false _ _ _ (fun _ => Hc) W E) as F. split; [exact (fr_wf _ _ _ _ _ _ F)|].
  split; [exact (fr_next _ _ _ _ _ _ F)|]. destruct (fr_keep _ _ _ _ id F Hid) as [_ X]; [discriminate|exact X].
Qed.
Lemma wf_log_id s o id : WF s -> id < e_next s -> (forall i, about i o = true -> i = id) -> WF (log o s).
Proof. intros W Hid Ho. apply wf_log; [exact W|]. intros i Hi. destruct (about i o) eqn:A; [|reflexivity]. apply Ho in A. lia. Qed.
Lemma cb_keep c (b : bool) k o s id : calls_have is_close k = false -> calls_safe c k -> WF s -> id < e_next s -> (forall i, about i o = true -> i = id) ->
  exists s', (if b then run_calls c k (log o s) else Ok s) = Ok s' /\ WF s' /\ e_next s <= e_next s' /\ ent id s' = ent id s.
Proof.
  intros Hc Hs W Hid Ho. destruct b; [|exists s; split; [reflexivity|split; [exact W|split; [lia|reflexivity]]]].
  destruct (run_calls_total c k (log o s) Hs) as (s' & E). exists s'. split; [exact E|].
  assert (Hid' : id < e_next (log o s)) by exact Hid.
  destruct (calls_keep c k _ s' id Hc (wf_log_id s o id W Hid Ho) Hid' E) as (A & B & C). split; [exact A|]. split; [exact B|exact C].
Qed.
Lemma ent_req_has s id q : ent id s = (Some q, None) -> has_id id (e_reqs s) = true.
Proof. intros H. rewrite has_id_find. unfold ent in H. injection H as -> _. reflexivity. Qed.
Lemma ent_resp_has s id q : ent id s = (None, Some q) -> has_id id (e_resps s) = true.
Proof. intros H. rewrite has_id_find. unfold ent in H. injection H as _ ->. reflexivity. Qed.

Lemma handle_rx_total c s from h ies v : WF s -> rx_sane c h v -> exists s', handle_rx c s from h ies v = Ok s'.
Proof.
  intros W (Hc & S1 & S2 & S3). unfold handle_rx.
  match goal with |- context [bind ?x _] => assert (exists s1, x = Ok s1) as (s1 & E1) end.
  { dif Eh; [|eexists; reflexivity]. apply tx_data_total. intros u. rewrite hb_resp_enc. discriminate. }
  rewrite E1. cbn [bind]. destruct (hb_queues s from h v s1 W E1) as (A1 & A2 & A3 & A4 & A5 & _ & A8).
  pose proof (fr_wf _ _ _ _ _ _ (A8 c DT false)) as W1. destruct (run_calls_total c (v_ctx v) s1 S1) as (s2 & E2). rewrite E2. cbn [bind].
  destruct (queue_find _ h) as [q|] eqn:Q; [|apply run_calls_total; exact S3].
  destruct (queue_find_some _ _ _ Q) as (P1 & P2 & P3).
  assert (Hid : q_id q < e_next s1). { apply (wf_lt s1 W1), in_app_iff. destruct (is_response (hd_type h)); tauto. }
  assert (C1 : calls_have is_close (v_ctx v) = false) by (destruct (is_response (hd_type h)); [exact (proj1 (env_parts v Hc))|exact Hc]).
  destruct (calls_keep c _ _ _ (q_id q) C1 W1 Hid E2) as (W2 & N2 & En2). destruct (is_response (hd_type h)) eqn:R; cbn [negb].
  - destruct (env_parts v Hc) as (_ & C2 & C3).
    rewrite (wf_ent_req DT s1 q W1 P1) in En2. rewrite (ent_req_has _ _ _ En2). cbn [negb].
    destruct (cb_keep c (q_cb q) (v_resp v) (OResp (q_id q) (Some (h, ies))) s2 (q_id q) C2 S2 W2) as (s3 & E3 & W3 & N3 & En3); [lia|cbn; intros; lia|].
    rewrite E3. cbn [bind].
    destruct (cb_keep c (negb (q_cb q) || v_rc1 v) (v_rx v) (ODispatch from h ies (Some (q_id q))) s3 (q_id q) C3 S3 W3) as (s4 & E4 & W4 & N4 & En4); [lia|cbn; intros; lia|].
    rewrite E4. cbn [bind]. unfold queue_del_req. rewrite (ent_req_has s4 (q_id q) q) by congruence. eexists. reflexivity.
  - rewrite (wf_ent_resp DT s1 q W1 P1) in En2. rewrite (ent_resp_has _ _ _ En2). eexists. reflexivity.
Qed.
Lemma handle_all_total c from l : forall vs s, WF s -> (forall u, ~ In (RxUB u) l) ->
  (forall i h ies, nth_error l i = Some (RxMsg h ies) -> rx_sane c h (vs i)) -> exists s', handle_all c from l vs s = Ok s'.
Proof.
  induction l as [|o l IH]; intros vs s W Hu Hv; cbn [handle_all]; [eexists; reflexivity|].
  assert (Hu' : forall u, ~ In (RxUB u) l) by (intros u X; apply (Hu u); right; exact X). destruct o as [h ies|e|e|u].
  - destruct (handle_rx_total c s from h ies (vs 0%nat) W (Hv 0%nat h ies eq_refl)) as (s1 & E1). rewrite E1. cbn [bind].
    apply IH; [|exact Hu'|intros i; exact (Hv (S i))].
    refine (adv_wf _ _ _ _ _ (handle_rx_adv c DT true s from h ies _ s1 W _ E1)). discriminate.
  - apply IH; [exact W|exact Hu'|intros i; exact (Hv (S i))].
  - eexists; reflexivity.
  - exfalso. apply (Hu u). left. reflexivity.
Qed.
Lemma step_total c s ev : WF s -> sane c ev -> exists s', step c s ev = Ok s'.
Proof.
  intros W H. destruct ev as [a|from d vs|dt|id snd k]; cbn [step sane] in *.
  - apply run_call_total. exact H.
  - destruct H as [H1 H2]. dif Eo; [|eexists; reflexivity]. apply handle_all_total; assumption.
  - eexists; reflexivity.
  - destruct H as [H1 H2]. destruct (find_id id (e_reqs s)) as [q|] eqn:F; [|destruct (find_id id (e_resps s)) as [q|] eqn:F2; [|eexists; reflexivity]].
    + dif Ed; [|eexists; reflexivity]. apply find_id_some in F. destruct F as [F Fi].
      assert (Hid : q_id q < e_next s) by (apply (wf_lt s W), in_app_iff; tauto).
      pose proof (wf_ent_req DT s q W F) as En. unfold req_timer. cbv zeta.
      set (s1 := log (OTimer (q_id q) (e_now s)) s). assert (W1 : WF s1) by (apply (wf_log_id s _ (q_id q) W Hid); cbn; intros; lia).
      assert (DROP : forall s2, WF s2 -> e_next s2 = e_next s -> ent (q_id q) s2 = (Some q, None) ->
        exists s3, bind (if q_cb q then run_calls c k (log (OResp (q_id q) None) s2) else Ok s2) (queue_del_req (q_id q)) = Ok s3).
      { intros s2 W2 N2 En2. destruct (cb_keep c (q_cb q) k (OResp (q_id q) None) s2 (q_id q) H1 H2 W2) as (s3 & E3 & W3 & N3 & En3); [lia|cbn; intros; lia|].
        rewrite E3. cbn [bind]. unfold queue_del_req. rewrite (ent_req_has s3 (q_id q) q) by congruence. eexists. reflexivity. }
      dif E0; [apply DROP; [exact W1|reflexivity|exact En]|]. unfold send_data. destruct (e_open s1 && snd); [eexists; reflexivity|].
      apply DROP; [|reflexivity|exact En]. apply (wf_log_id s1 _ (q_id q) W1); [exact Hid|]. cbn. intros; lia.
    + dif Ed; [|eexists; reflexivity]. unfold resp_timer, queue_del_resp. apply find_id_some in F2. destruct F2 as [F2 Fi].
      pose proof (wf_ent_resp DT s q W F2) as En. cbn [e_resps log]. rewrite (ent_resp_has s (q_id q) q En). eexists. reflexivity.
Qed.
Theorem no_undefined_behaviour c time evs : Forall (sane c) evs -> exists s, run c (ep_create time) evs = Ok s.
Proof.
  intros H. assert (G : forall s, WF s -> exists s', run c s evs = Ok s'); [|exact (G _ (wf_create time))].
  induction H as [|ev evs He H IH]; intros s W; cbn [run]; [eexists; reflexivity|].
  destruct (step_total c s ev W He) as (s1 & E1). rewrite E1. cbn [bind]. apply IH.
  apply (adv_wf c DT true s). eapply step_adv; [exact W|discriminate|intros ? ? ?; exact I|exact E1].
Qed.

(* a message that is not with the endpoint any more stays away; one of the calls closes: none is left *)
Lemma calls_gone c k s s' id : WF s -> id < e_next s -> ent id s = (None, None) -> run_calls c k s = Ok s' -> ent id s' = (None, None).
Proof.
  intros W Hid He E. pose proof (run_calls_fr c DT true _ _ _ (fun C => match Bool.diff_true_false C with end) W E) as F.
  destruct (fr_old _ _ _ _ _ _ F id Hid) as [[_ X]|(_ & _ & _ & X)]; congruence.
Qed.
Lemma calls_close c k : existsb is_close k = true -> forall s s' id, WF s -> id < e_next s -> run_calls c k s = Ok s' -> ent id s' = (None, None).
Proof.
  induction k as [|a k IH]; intros Hk s s' id W Hid E; [discriminate|]. cbn in Hk. pose proof E as E0. cbn [run_calls] in E. inv_bind E. rename x into s1.
  assert (Ea1 : run_calls c [a] s = Ok s1) by (cbn; rewrite E1; reflexivity).
  pose proof (run_calls_fr c DT true _ _ _ (fun C => match Bool.diff_true_false C with end) W Ea1) as F.
  pose proof (fr_wf _ _ _ _ _ _ F) as W1. pose proof (fr_next _ _ _ _ _ _ F) as N1.
  destruct (is_close a) eqn:Ea; [|apply (IH Hk s1 s' id W1); [lia|exact E]].
  apply (calls_gone c k s1 s' id W1); [lia| |exact E]. destruct a; try discriminate; injection E1 as <-; reflexivity.
Qed.
Lemma ent_none_has s id : ent id s = (None, None) -> has_id id (e_reqs s) = false.
Proof. intros H. rewrite has_id_find. unfold ent in H. injection H as -> _. reflexivity. Qed.
(* [b]: the callback is called *)
Lemma cb_any c (b : bool) k o s id : calls_safe c k -> WF s -> id < e_next s -> (forall i, about i o = true -> i = id) ->
  exists s', (if b then run_calls c k (log o s) else Ok s) = Ok s' /\ WF s' /\ e_next s <= e_next s'
    /\ (ent id s = (None, None) -> ent id s' = (None, None)) /\ (b = true -> existsb is_close k = true -> ent id s' = (None, None)).
Proof.
  intros Hs W Hid Ho. destruct b; [|exists s; split; [reflexivity|split; [exact W|split; [lia|split; [tauto|discriminate]]]]].
  destruct (run_calls_total c k (log o s) Hs) as (s' & E). exists s'. split; [exact E|].
  assert (Hid' : id < e_next (log o s)) by exact Hid. pose proof (wf_log_id s o id W Hid Ho) as W'.
  pose proof (run_calls_fr c DT true _ _ _ (fun C => match Bool.diff_true_false C with end) W' E) as F.
  split; [exact (fr_wf _ _ _ _ _ _ F)|]. split; [exact (fr_next _ _ _ _ _ _ F)|]. split.
  - intros He. exact (calls_gone c k _ s' id W' Hid' He E).
  - intros _ Hk. exact (calls_close c k Hk _ s' id W' Hid' E).
Qed.

Theorem close_in_rx_callback c s from h ies v : reachable c s -> is_response (hd_type h) = true ->
  calls_safe c (v_ctx v) -> calls_safe c (v_resp v) -> calls_safe c (v_rx v) ->
  (exists q, In q (e_reqs s) /\ hd_seq (q_h q) = hd_seq h) ->
  (forall q, In q (e_reqs s) -> hd_seq (q_h q) = hd_seq h -> existsb is_close (if q_cb q then v_resp v else v_rx v) = true) ->
  handle_rx c s from h ies v = UB DoubleFree.
Proof.
  intros R Hr S1 S2 S3 (q0 & Q0 & Q0s) Hcl. pose proof (reach_wf c s R) as W. unfold handle_rx. rewrite (not_hb h Hr), Hr. cbn [bind negb].
  destruct (queue_find (e_reqs s) h) as [q|] eqn:Q; [|exfalso; apply (queue_find_none _ _ q0 Q Q0); [|exact Q0s]].
  2:{ rewrite (wf_rq s W q0 Q0), Hr. reflexivity. }
  destruct (queue_find_some _ _ _ Q) as (P1 & P2 & P3). specialize (Hcl q P1 P3).
  assert (Hid : q_id q < e_next s) by (apply (wf_lt s W), in_app_iff; tauto).
  destruct (run_calls_total c (v_ctx v) s S1) as (s1 & E1). rewrite E1. cbn [bind].
  pose proof (run_calls_fr c DT true _ _ _ (fun C => match Bool.diff_true_false C with end) W E1) as F1.
  pose proof (fr_wf _ _ _ _ _ _ F1) as W1. pose proof (fr_next _ _ _ _ _ _ F1) as N1.
  destruct (has_id (q_id q) (e_reqs s1)) eqn:Eh; cbn [negb]; [|reflexivity].
  destruct (cb_any c (q_cb q) (v_resp v) (OResp (q_id q) (Some (h, ies))) s1 (q_id q) S2 W1) as (s2 & E2 & W2 & N2 & G2 & C2); [lia|cbn; intros; lia|].
  rewrite E2. cbn [bind].
  destruct (cb_any c (negb (q_cb q) || v_rc1 v) (v_rx v) (ODispatch from h ies (Some (q_id q))) s2 (q_id q) S3 W2) as (s3 & E3 & W3 & N3 & G3 & C3); [lia|cbn; intros; lia|].
  rewrite E3. cbn [bind]. unfold queue_del_req. rewrite (ent_none_has s3); [reflexivity|].
  destruct (q_cb q); [exact (G3 (C2 eq_refl Hcl))|exact (C3 eq_refl Hcl)].
Qed.
Theorem close_in_timeout_callback c s id snd k q : reachable c s -> calls_safe c k -> existsb is_close k = true ->
  In q (e_reqs s) -> q_id q = id -> q_cb q = true -> q_dl q <= e_now s -> q_n1 q = 0 \/ e_open s && snd = false ->
  step c s (ETimer id snd k) = UB DoubleFree.
Proof.
  intros R Sk Hk Q <- Hcb Hdl Hn. pose proof (reach_wf c s R) as W. cbn [step].
  assert (Hid : q_id q < e_next s) by (apply (wf_lt s W), in_app_iff; tauto).
  pose proof (wf_ent_req DT s q W Q) as En. unfold ent in En. injection En as -> _. rewrite (proj2 (N.leb_le _ _) Hdl).
  unfold req_timer. cbv zeta. set (s1 := log (OTimer (q_id q) (e_now s)) s). rewrite Hcb.
  assert (W1 : WF s1) by (apply (wf_log_id s _ (q_id q) W Hid); cbn; intros; lia).
  assert (DROP : forall s2, WF s2 -> e_next s2 = e_next s -> bind (run_calls c k (log (OResp (q_id q) None) s2)) (queue_del_req (q_id q)) = UB DoubleFree).
  { intros s2 W2 N2. destruct (cb_any c true k (OResp (q_id q) None) s2 (q_id q) Sk W2) as (s3 & E3 & W3 & N3 & G3 & C3); [lia|cbn; intros; lia|].
    rewrite E3. cbn [bind]. unfold queue_del_req. rewrite (ent_none_has s3 (q_id q) (C3 eq_refl Hk)). reflexivity. }
  dif E0; [apply DROP; [exact W1|reflexivity]|]. destruct Hn as [Hn|Hn]; [lia|]. unfold send_data. change (e_open s1) with (e_open s). rewrite Hn.
  apply DROP; [|reflexivity]. apply (wf_log_id s1 _ (q_id q) W1); [exact Hid|]. cbn. intros; lia.
Qed.
Theorem close_in_unmatched c s from h ies v : reachable c s ->
  calls_safe c (v_ctx v) -> calls_safe c (v_resp v) -> calls_safe c (v_rx v) ->
  (if is_response (hd_type h) then forall q, In q (e_reqs s) -> hd_seq (q_h q) <> hd_seq h else forall id, ~ kept_response s id (hd_seq h)) ->
  exists s', handle_rx c s from h ies v = Ok s'.
Proof.
  intros R S1 S2 S3 Hn. pose proof (reach_wf c s R) as W. unfold handle_rx.
  match goal with |- context [bind ?x _] => assert (exists s1, x = Ok s1) as (s1 & E1) end.
  { dif Eh; [|eexists; reflexivity]. apply tx_data_total. intros u. rewrite hb_resp_enc. discriminate. }
  rewrite E1. cbn [bind]. destruct (hb_queues s from h v s1 W E1) as (A1 & A2 & _). rewrite A1, A2.
  destruct (queue_find _ h) as [q|] eqn:Q.
  - exfalso. destruct (queue_find_some _ _ _ Q) as (P1 & P2 & P3). destruct (is_response (hd_type h)) eqn:Er; [exact (Hn q P1 P3)|].
    destruct (entry_kept c s q R P1) as [K _]. rewrite P3 in K. exact (Hn _ K).
  - destruct (run_calls_total c (v_ctx v) s1 S1) as (s2 & E2). rewrite E2. cbn [bind]. apply run_calls_total. exact S3.
Qed.

(* ---------------------------------------------------------------- C82 *)
Theorem busy_iff c s : reachable c s -> c_n1 c <> 0 -> c_t1 c <> 0 ->
  is_busy s = true <-> exists id to h ies cb, In (OTx id to h ies cb) (e_trace s) /\ count (is_free id) (e_trace s) = 0.
Proof.
  intros H Hn Ht. pose proof (reach_wf c s H) as W. split.
  - intros B. assert (exists q, In q (e_reqs s ++ e_resps s)) as (q & Q).
    { unfold is_busy in B. destruct (e_reqs s) as [|q l]; [destruct (e_resps s) as [|q l]; [discriminate|]|]; exists q; left; reflexivity. }
    pose proof (wf_lt s W q Q) as Hid. destruct (reach_known c s _ H Hid) as (m & p & K). exists (q_id q), (mi_to m), (mi_h m), (mi_ies m), (mi_cb m). split.
    + apply (proj1 (in_tr_of (q_id q) _ _ (N.eqb_refl _ : about (q_id q) (OTx (q_id q) _ _ _ _) = true))). exact (li_txin _ _ _ _ _ _ _ (kn_inv _ _ _ _ _ _ _ K)).
    + pose proof (known_obs _ _ _ _ _ _ _ K) as L. destruct p as [k dl|dl|].
      * destruct L as (_ & _ & _ & _ & L & _). obsfields. lia.
      * destruct L as (_ & _ & _ & _ & _ & L & _). obsfields. lia.
      * exfalso. destruct (kn_phase _ _ _ _ _ _ _ K) as [P1 P2]. apply in_app_iff in Q. destruct Q as [Q|Q].
        -- pose proof (wf_ent_req DT s q W Q) as En. unfold ent in En. injection En as En _. congruence.
        -- pose proof (wf_ent_resp DT s q W Q) as En. unfold ent in En. injection En as _ En. congruence.
  - intros (id & to & h & ies & cb & Htx & Hf). destruct (is_busy s) eqn:B; [reflexivity|]. exfalso.
    pose proof (freed_after_close c s id to h ies cb H Hn Ht Htx) as F. unfold is_busy in B.
    assert (E : e_trace (ep_close s) = e_trace s); [|rewrite E in F; lia]. unfold ep_close. cbn [e_trace].
    destruct (e_reqs s); [|discriminate]. destruct (e_resps s); [reflexivity|discriminate].
Qed.

(* ---------------------------------------------------------------- C52 *)
Theorem what_is_sent c s id to h ies cb t to' bs : reachable c s -> In (OTx id to h ies cb) (e_trace s) -> In (OSend (Some id) t to' bs) (e_trace s) ->
  to' = to /\ exists nr, encode_msg (mkHdr (hd_version h) (hd_type h) (hd_prio h) (hd_seid h) nr) (put_node_id (c_node c) (hd_type h) ies) = Ok bs
    /\ if is_response (hd_type h) then nr = hd_seq h else In (OSeq (Some id) nr) (e_trace s).
Proof.
  intros H Htx Hs. destruct (tx_known c s id to h ies cb H Htx) as (m & p & K & <- & <- & <- & _).
  destruct (known_sends _ _ _ _ _ _ _ K _ _ _ Hs) as (-> & -> & [En Er]). split; [reflexivity|]. exists (mi_nr m). split; [exact En|].
  fold (mi_resp m). destruct (mi_resp m) eqn:R; [apply Er; reflexivity|].
  apply (proj1 (in_tr_of id (OSeq (Some id) (mi_nr m)) (e_trace s) (N.eqb_refl _))). exact (li_seq _ _ _ _ _ _ _ (kn_inv _ _ _ _ _ _ _ K) R).
Qed.

Theorem different_seq_nrs c s from h ies v s' : reachable c s -> c_n1 c <> 0 -> c_t1 c <> 0 -> env_has is_close v = false ->
  handle_rx c s from h ies v = Ok s' ->
  (is_response (hd_type h) = false -> (forall id, ~ kept_response s id (hd_seq h)) ->
     exists a b, e_trace s' = a ++ ODispatch from h ies None :: b ++ e_trace s)
  /\ (is_response (hd_type h) = true -> forall q, In q (e_reqs s) -> hd_seq (q_h q) <> hd_seq h ->
     (forall q', In q' (e_reqs s) -> hd_seq (q_h q') = hd_seq h -> forall q'', In q'' (e_reqs s) -> hd_seq (q_h q'') = hd_seq h -> q'' = q') ->
     tr_of (q_id q) (e_trace s') = tr_of (q_id q) (e_trace s) /\ find_id (q_id q) (e_reqs s') = find_id (q_id q) (e_reqs s)).
Proof.
  intros H Hn Ht Hc E. pose proof (reach_wf c s H) as W. split.
  - intros R Hk. destruct (new_request_dispatched c s from h ies v s' H Hn Ht Hc R Hk E) as (a & b & T & _). exists a, b. exact T.
  - intros R q Hq Hs Hu. assert (Hid : q_id q < e_next s) by (apply (wf_lt s W), in_app_iff; tauto).
    destruct (queue_find (e_reqs s) h) as [q1|] eqn:Q.
    + destruct (queue_find_some _ _ _ Q) as (P1 & P2 & P3). destruct (rx_resp_matched c s from h ies v s' W E q1 Hc R Q) as (F & _ & _).
      assert (Hne : q_id q1 <> q_id q).
      { intros X. pose proof (find_id_nodup _ q1 (wf_reqs _ W) P1) as F1. pose proof (find_id_nodup _ q (wf_reqs _ W) Hq) as F2. rewrite X in F1. congruence. }
      destruct (fr_keep _ _ _ _ (q_id q) F Hid) as [A B]; [congruence|]. unfold ent in B. injection B as B1 B2. auto.
    + destruct (rx_unmatched c s from h ies v s' W E Hc) as (F & _); [rewrite R; exact Q|].
      destruct (fr_keep _ _ _ _ (q_id q) F Hid) as [A B]; [discriminate|]. unfold ent in B. injection B as B1 B2. auto.
Qed.
Lemma close_reach c s : reachable c s -> reachable c (ep_close s).
Proof. intros H. apply (reach_run c s [ECall CClose]); [exact H|reflexivity]. Qed.
Theorem close_final c s : reachable c s ->
  e_open (ep_close s) = false /\ is_busy (ep_close s) = false
  /\ (forall id, tr_of id (e_trace (ep_close s)) = (if has_id id (e_reqs s ++ e_resps s) then [OFree id] else []) ++ tr_of id (e_trace s))
  /\ (forall id evs s', id < e_next s -> run c (ep_close s) evs = Ok s' -> tr_of id (e_trace s') = tr_of id (e_trace (ep_close s))).
Proof.
  intros H. destruct (close_effect c s H) as (A & B & C). repeat split; try assumption. intros id evs s' Hid E.
  exact (gone_is_silent c (ep_close s) evs s' id (close_reach c s H) Hid eq_refl E).
Qed.
Theorem closed_never_called c s evs s' id : reachable c s -> id < e_next s -> count (is_resp_cb id) (e_trace (ep_close s)) = 0 -> run c (ep_close s) evs = Ok s' ->
  count (is_resp_cb id) (e_trace s') = 0.
Proof.
  intros H Hid Hc E. assert (A : forall o, is_resp_cb id o = true -> about id o = true) by (intros o; destruct o; cbn; congruence).
  rewrite <- (count_tr_of _ id) by exact A. rewrite (gone_is_silent c (ep_close s) evs s' id (close_reach c s H) Hid eq_refl E), count_tr_of by exact A. exact Hc.
Qed.
Lemma put_node_id_spec node t x ies :
  (In t [5; 6; 9; 10; 50; 51] -> put_node_id node t (x :: ies) = [VLeaf node] :: ies)
  /\ (~ In t [5; 6; 9; 10; 50; 51] -> put_node_id node t (x :: ies) = x :: ies).
Proof.
  split.
  - intros H. repeat (destruct H as [<-|H]; [reflexivity|]). destruct H.
  - intros H. unfold put_node_id, memb_ofs, get_msg_coding.
    repeat match goal with |- context [t =? ?k] => destruct (t =? k) eqn:?; [apply N.eqb_eq in Heqb; try (exfalso; apply H; subst t; cbn; tauto); reflexivity|]; clear Heqb end.
    reflexivity.
Qed.

Lemma lsteps_ret c D cl id m tr p tr' p' : lsteps c D cl id m tr p tr' p' ->
  exists a, tr' = a ++ tr /\ (forall ok, ~ In (ORet id ok) a) /\ (p = PGone -> a = []).
Proof.
  intros L. induction L as [|tr1 p1 tr2 p2 L IH Hs].
  - exists []. split; [reflexivity|]. split; [intros ok []|reflexivity].
  - destruct IH as (a & -> & Ha & Hg). assert (G : exists b, tr2 = b ++ a ++ tr /\ (forall ok, ~ In (ORet id ok) b) /\ (p1 = PGone -> b = [])).
    { assert (F : forall ok, ~ In (ORet id ok) (fail_cb id m)) by (intros ok; unfold fail_cb; destruct (negb (mi_resp m) && mi_cb m); cbn; intuition discriminate).
      inversion Hs; subst.
      - eexists [_; _]. split; [reflexivity|]. split; [cbn; intuition discriminate|discriminate].
      - eexists (OFree id :: fail_cb id m ++ [_; _]). split; [cbn; rewrite <- app_assoc; reflexivity|]. split; [|discriminate].
        intros ok [X|X]; [discriminate|]. apply in_app_iff in X. destruct X as [X|X]; [exact (F _ X)|cbn in X; intuition discriminate].
      - eexists (OFree id :: fail_cb id m ++ [_]). split; [cbn; rewrite <- app_assoc; reflexivity|]. split; [|discriminate].
        intros ok [X|X]; [discriminate|]. apply in_app_iff in X. destruct X as [X|X]; [exact (F _ X)|cbn in X; intuition discriminate].
      - eexists (OFree id :: (if disp then [_] else []) ++ (if mi_cb m then [_] else [])). split; [cbn; rewrite <- app_assoc; reflexivity|]. split; [|discriminate].
        intros ok [X|X]; [discriminate|]. apply in_app_iff in X. destruct disp, (mi_cb m); cbn in X; intuition discriminate.
      - eexists [_]. split; [reflexivity|]. split; [cbn; intuition discriminate|discriminate].
      - eexists [_]. split; [reflexivity|]. split; [cbn; intuition discriminate|discriminate].
      - eexists [_; _]. split; [reflexivity|]. split; [cbn; intuition discriminate|discriminate].
      - eexists [_]. split; [reflexivity|]. split; [cbn; intuition discriminate|congruence]. }
    destruct G as (b & -> & Hb & Hbg). exists (b ++ a). split; [apply app_assoc|]. split.
    + intros ok X. apply in_app_iff in X. destruct X as [X|X]; [exact (Hb _ X)|exact (Ha _ X)].
    + intros Hp. specialize (Hg Hp). subst a. assert (p1 = PGone) as ->; [|rewrite Hbg by reflexivity; reflexivity].
      clear -L Hp. subst p. induction L as [|? ? ? ? L IH Hs]; [reflexivity|]. subst p1. inversion Hs; subst; congruence.
Qed.
Theorem tx_result c s id to h ies cb : reachable c s -> In (OTx id to h ies cb) (e_trace s) ->
  (In (ORet id false) (e_trace s) -> count (is_send id) (e_trace s) = 0 /\ count (is_free id) (e_trace s) = 1
     /\ count (is_resp_fail id) (e_trace s) = (if negb (is_response (hd_type h)) && cb then 1 else 0) /\ ~ In (ORet id true) (e_trace s))
  /\ (In (ORet id true) (e_trace s) -> count (is_send id) (e_trace s) <> 0)
  /\ (In (ORet id true) (e_trace s) \/ In (ORet id false) (e_trace s)).
Proof.
  intros H Htx. destruct (tx_known c s id to h ies cb H Htx) as (m & p & K & _ & <- & _ & <-). fold (mi_resp m).
  destruct (kn_life _ _ _ _ _ _ _ K) as (tr0 & p0 & Hb & L). destruct (lsteps_ret _ _ _ _ _ _ _ _ _ L) as (a & Ea & Ha & Hg).
  assert (IN : forall ok, In (ORet id ok) (e_trace s) <-> In (ORet id ok) tr0).
  { intros ok. rewrite <- (in_tr_of id _ _ (N.eqb_refl _ : about id (ORet id ok) = true)), Ea, in_app_iff. specialize (Ha ok). tauto. }
  rewrite !IN. rewrite <- (count_tr_of (is_send id) id), <- (count_tr_of (is_free id) id), <- (count_tr_of (is_resp_fail id) id)
    by (intros o; destruct o as [| |[i|]| |? [[]|]| | | |]; cbn; congruence).
  assert (NF : forall ok l, In (ORet id ok) (fail_cb id m ++ l) -> In (ORet id ok) l).
  { intros ok l X. apply in_app_iff in X. destruct X as [X|X]; [|exact X]. unfold fail_cb in X. destruct (negb (mi_resp m) && mi_cb m); cbn in X; intuition discriminate. }
  assert (NS : forall ok, ~ In (ORet id ok) (tx_start id m)) by (intros ok; unfold tx_start; destruct (mi_resp m); cbn; intuition discriminate).
  inversion Hb; subst.
  - rewrite Hg in Ea by reflexivity. cbn [app] in Ea. split; [|split].
    + intros _. rewrite Ea. unfold fail_cb, tx_start. split; [|split; [|split]].
      * destruct (mi_resp m), (mi_cb m); cbn; repeat (rewrite count_cons; cbn [is_send]); reflexivity.
      * destruct (mi_resp m), (mi_cb m); cbn; repeat (rewrite count_cons; cbn [is_free]); rewrite ?N.eqb_refl; reflexivity.
      * destruct (mi_resp m), (mi_cb m); cbn; repeat (rewrite count_cons; cbn [is_resp_fail]); rewrite ?N.eqb_refl; reflexivity.
      * intros [X|[X|X]]; try discriminate. apply NF in X. destruct X as [X|X]; [discriminate|exact (NS _ X)].
    + intros [X|[X|X]]; try discriminate. apply NF in X. destruct X as [X|X]; [discriminate|destruct (NS _ X)].
    + right. left. reflexivity.
  - split; [|split].
    + intros [X|X]; [discriminate|]. apply NF in X. destruct X as [X|X]; [discriminate|destruct (NS _ X)].
    + intros _. rewrite Ea, !count_app, count_cons, count_app, count_cons. cbn [is_send]. rewrite N.eqb_refl. lia.
    + left. left. reflexivity.
  - split; [|split].
    + intros [X|[X|X]]; try discriminate. destruct (NS _ X).
    + intros _. rewrite Ea, !count_app, !count_cons. cbn [is_send]. rewrite N.eqb_refl. lia.
    + left. left. reflexivity.
  - split; [|split].
    + intros [X|[X|X]]; try discriminate. destruct (NS _ X).
    + intros _. rewrite Ea, !count_app, !count_cons. cbn [is_send]. rewrite N.eqb_refl. lia.
    + left. left. reflexivity.
Qed.

Lemma hb_resp_decodes nr r : nr < 2 ^ 24 -> r < 2 ^ 32 ->
  rx_datagram (hb_resp_bytes nr r) = [RxMsg (mkHdr 1 msgt_heartbeat_resp None None nr) [[VLeaf (IvNum r)]]].
Proof.
  intros Hn Hr. set (h := mkHdr 1 msgt_heartbeat_resp None None nr). set (bs := [0; 96; 0; 4] ++ be_put 4 r).
  assert (V : valid_msg h [[VLeaf (IvNum r)]] bs).
  { split; [repeat split; assumption|]. exists ies_heartbeat. split; [reflexivity|]. split; [|split].
    - repeat constructor. exact Hr.
    - exists [be_put 4 r], []. split; [repeat constructor|]. split; reflexivity.
    - vm_compute. discriminate. }
  pose proof (rx_datagram_bundle [(h, [[VLeaf (IvNum r)]], bs)]) as X. cbn [strip msgs_of map fst snd] in X.
  assert (E : wire_bundle [(h, bs)] = hb_resp_bytes nr r) by (cbn [wire_bundle]; rewrite app_nil_r; reflexivity).
  rewrite E in X. apply X; [constructor; [exact V|constructor]|]. vm_compute. reflexivity.
Qed.
Lemma hb_req_decodes nr r : nr < 2 ^ 24 -> r < 2 ^ 32 ->
  rx_datagram (hb_req_bytes nr r) = [RxMsg (mkHdr 1 msgt_heartbeat_req None None nr) [[VLeaf (IvNum r)]]].
Proof.
  intros Hn Hr. set (h := mkHdr 1 msgt_heartbeat_req None None nr). set (bs := [0; 96; 0; 4] ++ be_put 4 r).
  assert (V : valid_msg h [[VLeaf (IvNum r)]] bs).
  { split; [repeat split; assumption|]. exists ies_heartbeat. split; [reflexivity|]. split; [|split].
    - repeat constructor. exact Hr.
    - exists [be_put 4 r], []. split; [repeat constructor|]. split; reflexivity.
    - vm_compute. discriminate. }
  pose proof (rx_datagram_bundle [(h, [[VLeaf (IvNum r)]], bs)]) as X. cbn [strip msgs_of map fst snd] in X.
  assert (E : wire_bundle [(h, bs)] = hb_req_bytes nr r) by (cbn [wire_bundle]; rewrite app_nil_r; reflexivity).
  rewrite E in X. apply X; [constructor; [exact V|constructor]|]. vm_compute. reflexivity.
Qed.
Lemma hb_req_enc' nr r : encode_msg (mkHdr 1 msgt_heartbeat_req None None nr) [[VLeaf (IvNum r)]] = Ok (hb_req_bytes nr r).
Proof. vm_compute. reflexivity. Qed.
Theorem heartbeat_sent c s to s' : e_open s = true -> run_call c (CHeartbeat to true) s = Ok s' ->
  let nr := next_seq_nr (e_seq s) in
  e_trace s' = OSend None (e_now s) to (hb_req_bytes nr (e_recov s)) :: OSeq None nr :: e_trace s
  /\ e_reqs s' = e_reqs s /\ e_resps s' = e_resps s /\ e_seq s' = nr.
Proof.
  intros Ho E. cbn [run_call] in E. unfold tx_heartbeat_req, tx_data in E. rewrite hb_req_enc' in E. injection E as <-.
  unfold send_data. cbn [e_open log set_seq]. rewrite Ho. cbn [andb fst]. repeat split; reflexivity.
Qed.
