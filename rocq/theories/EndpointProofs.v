(* EndpointProofs.v -- every message given to the endpoint lives the life described in EndpointSpec.v *)
From Verif Require Import Base BaseProofs GtlvModel DecEncModel IesModel IesProofs TablesModel MsgModel EndpointModel EndpointSpec.

(* ---------------------------------------------------------------- queues as maps *)

Lemma find_id_some id l q : find_id id l = Some q -> In q l /\ q_id q = id.
Proof. unfold find_id. intros H. apply find_some in H. destruct H as [H1 H2]. split; [assumption|lia]. Qed.
Lemma find_id_none id l : find_id id l = None <-> ~ In id (map q_id l).
Proof.
  unfold find_id. induction l as [|x l IH]; cbn; [tauto|]. destruct (q_id x =? id) eqn:E.
  - split; [discriminate|]. intros H. exfalso. apply H. left. lia.
  - rewrite IH. split; [|tauto]. intros H [H'|H']; [lia|tauto].
Qed.
Lemma find_id_nodup l q : NoDup (map q_id l) -> In q l -> find_id (q_id q) l = Some q.
Proof.
  unfold find_id. induction l as [|x l IH]; cbn; [tauto|]. intros H [->|Hq].
  - rewrite N.eqb_refl. reflexivity.
  - inversion H as [|? ? H1 H2]; subst. destruct (q_id x =? q_id q) eqn:E; [|apply IH; assumption].
    exfalso. apply H1. apply N.eqb_eq in E. rewrite E. apply in_map. assumption.
Qed.
Lemma has_id_find id l : has_id id l = match find_id id l with Some _ => true | None => false end.
Proof. unfold has_id, find_id. induction l as [|x l IH]; cbn; [reflexivity|]. destruct (q_id x =? id); [reflexivity|apply IH]. Qed.
Lemma find_del id i l : find_id i (del_id id l) = if i =? id then None else find_id i l.
Proof.
  unfold find_id, del_id. induction l as [|x l IH]; cbn; [destruct (i =? id); reflexivity|].
  destruct (q_id x =? id) eqn:E; cbn.
  - rewrite IH. destruct (i =? id) eqn:E2; [reflexivity|]. destruct (q_id x =? i) eqn:E3; [lia|reflexivity].
  - destruct (q_id x =? i) eqn:E3; [|apply IH]. destruct (i =? id) eqn:E2; [lia|reflexivity].
Qed.
Lemma find_upd q i l : find_id i (upd_id q l) = if i =? q_id q then if has_id i l then Some q else None else find_id i l.
Proof.
  unfold find_id, upd_id, has_id. induction l as [|x l IH]; cbn; [destruct (i =? q_id q); reflexivity|].
  destruct (q_id x =? q_id q) eqn:E; cbn.
  - destruct (q_id q =? i) eqn:E2.
    + replace (i =? q_id q) with true by lia. replace (q_id x =? i) with true by lia. reflexivity.
    + rewrite IH. replace (i =? q_id q) with false by lia. replace (q_id x =? i) with false by lia. reflexivity.
  - destruct (q_id x =? i) eqn:E2; cbn; [|apply IH]. replace (i =? q_id q) with false by lia. reflexivity.
Qed.
Lemma find_cons q i l : find_id i (q :: l) = if q_id q =? i then Some q else find_id i l.
Proof. reflexivity. Qed.
Lemma find_app1 q i l : find_id i (l ++ [q]) = match find_id i l with Some x => Some x | None => if q_id q =? i then Some q else None end.
Proof. unfold find_id. induction l as [|x l IH]; cbn; [reflexivity|]. destruct (q_id x =? i); [reflexivity|apply IH]. Qed.
Lemma upd_ids q l : map q_id (upd_id q l) = map q_id l.
Proof. unfold upd_id. rewrite map_map. apply map_ext. intros x. destruct (q_id x =? q_id q) eqn:E; [lia|reflexivity]. Qed.
Lemma del_in id q l : In q (del_id id l) -> In q l.
Proof. unfold del_id. rewrite filter_In. tauto. Qed.

(* ---------------------------------------------------------------- well-formed states *)

Record WF (s : ep) : Prop := mkWF {
  wf_nodup : NoDup (map q_id (e_reqs s ++ e_resps s));
  wf_lt : forall q, In q (e_reqs s ++ e_resps s) -> q_id q < e_next s;
  wf_new : forall id, e_next s <= id -> tr_of id (e_trace s) = [];
  wf_rq : forall q, In q (e_reqs s) -> is_response (hd_type (q_h q)) = false;
  wf_rs : forall q, In q (e_resps s) -> is_response (hd_type (q_h q)) = true;
}.
Definition ent (id : N) (s : ep) : option qe * option qe := (find_id id (e_reqs s), find_id id (e_resps s)).

Lemma nodup_filter {A} (f : A -> bool) (g : A -> N) l : NoDup (map g l) -> NoDup (map g (filter f l)).
Proof.
  induction l as [|x l IH]; cbn; [auto|]. intros H. inversion H as [|? ? H1 H2]; subst. destruct (f x); cbn; [|auto].
  constructor; [|auto]. rewrite in_map_iff in *. intros (y & E & Hy). apply H1. exists y. split; [assumption|].
  apply filter_In in Hy. tauto.
Qed.
Lemma nodup_app_l {A} (a b : list A) : NoDup (a ++ b) -> NoDup a.
Proof. induction a as [|x a IH]; cbn; [constructor|]. intros H. inversion H; subst. constructor; [rewrite in_app_iff in *; tauto|auto]. Qed.
Lemma nodup_app_r {A} (a b : list A) : NoDup (a ++ b) -> NoDup b.
Proof. induction a as [|x a IH]; cbn; [auto|]. intros H. inversion H; subst. auto. Qed.
Lemma wf_reqs s : WF s -> NoDup (map q_id (e_reqs s)).
Proof. intros H. apply wf_nodup in H. rewrite map_app in H. exact (nodup_app_l _ _ H). Qed.
Lemma wf_resps s : WF s -> NoDup (map q_id (e_resps s)).
Proof. intros H. apply wf_nodup in H. rewrite map_app in H. exact (nodup_app_r _ _ H). Qed.
Lemma wf_ent_none s id : WF s -> e_next s <= id -> ent id s = (None, None).
Proof.
  intros H Hid. unfold ent. f_equal; apply find_id_none; rewrite in_map_iff; intros (q & E & Hq);
    pose proof (wf_lt s H q); rewrite in_app_iff in *; intuition lia.
Qed.
Lemma wf_create time : WF (ep_create time).
Proof. constructor; cbn; [constructor|tauto|reflexivity|tauto|tauto]. Qed.

(* changes that only concern message [id] *)
Lemma wf_log s o : WF s -> (forall id, e_next s <= id -> about id o = false) -> WF (log o s).
Proof.
  intros [H1 H2 H3 H4 H5] Ho. constructor; cbn; [assumption|assumption| |assumption|assumption]. intros id Hid. rewrite (Ho id Hid). apply H3. assumption.
Qed.
Lemma wf_sub s reqs resps : WF s -> NoDup (map q_id (reqs ++ resps)) ->
  (forall q, In q (reqs ++ resps) -> q_id q < e_next s) ->
  (forall q, In q reqs -> is_response (hd_type (q_h q)) = false) -> (forall q, In q resps -> is_response (hd_type (q_h q)) = true) ->
  WF (mkEp reqs resps (e_seq s) (e_recov s) (e_open s) (e_now s) (e_next s) (e_trace s)).
Proof. intros [H1 H2 H3 H4 H5] Hn Hl Hq Hs. constructor; cbn; assumption. Qed.

Section Frame.
Variables (c : ep_cfg) (D : N -> N -> Prop) (cl : bool).

(* message [id] is untouched, or was queued and the endpoint was closed *)
Definition keeps (id : N) (s s' : ep) : Prop :=
  (tr_of id (e_trace s') = tr_of id (e_trace s) /\ ent id s' = ent id s)
  \/ (cl = true /\ ent id s <> (None, None) /\ tr_of id (e_trace s') = OFree id :: tr_of id (e_trace s) /\ ent id s' = (None, None)).
(* message [id] lives as it should *)
Definition lives (id : N) (s : ep) : Prop := exists m p, life c D cl id m (tr_of id (e_trace s)) p /\ in_phase s id m p.

Lemma keeps_refl id s : keeps id s s.
Proof. left. split; reflexivity. Qed.
Lemma keeps_trans id s1 s2 s3 : keeps id s1 s2 -> keeps id s2 s3 -> keeps id s1 s3.
Proof.
  unfold keeps. intros [[H1 H2]|(A & B & C & E)] [[H3 H4]|(A' & B' & C' & E')].
  - left. split; congruence.
  - right. repeat split; congruence.
  - right. repeat split; congruence.
  - exfalso. congruence.
Qed.
Lemma in_phase_ent s s' id m p : ent id s' = ent id s -> in_phase s id m p -> in_phase s' id m p.
Proof. unfold ent, in_phase. intros H. injection H as H1 H2. rewrite H1, H2. auto. Qed.
Lemma in_phase_gone s id m p : in_phase s id m p -> ent id s <> (None, None) -> p <> PGone.
Proof. intros H He ->. cbn in H. destruct H as [H1 H2]. unfold ent in He. rewrite H1, H2 in He. congruence. Qed.
Lemma gone_in_phase s id m : ent id s = (None, None) -> in_phase s id m PGone.
Proof. unfold ent, in_phase. intros H. injection H as H1 H2. auto. Qed.
Lemma keeps_lsteps id s s' m p : keeps id s s' -> in_phase s id m p ->
  exists p', lsteps c D cl id m (tr_of id (e_trace s)) p (tr_of id (e_trace s')) p' /\ in_phase s' id m p'.
Proof.
  intros [[H1 H2]|(A & B & C & E)] Hp.
  - exists p. rewrite H1. split; [constructor|]. exact (in_phase_ent _ _ _ _ _ H2 Hp).
  - exists PGone. split; [|apply gone_in_phase; assumption]. rewrite C. econstructor; [constructor|].
    apply S_close; [assumption|]. exact (in_phase_gone _ _ _ _ Hp B).
Qed.
Lemma lsteps_trans id m tr1 p1 tr2 p2 tr3 p3 : lsteps c D cl id m tr1 p1 tr2 p2 -> lsteps c D cl id m tr2 p2 tr3 p3 ->
  lsteps c D cl id m tr1 p1 tr3 p3.
Proof. intros H1 H2. induction H2 as [|? ? ? ? H2 IH Hs]; [assumption|]. econstructor; eassumption. Qed.
Lemma lsteps_one id m tr1 p1 tr2 p2 : lstep c D cl id m tr1 p1 tr2 p2 -> lsteps c D cl id m tr1 p1 tr2 p2.
Proof. intros H. econstructor; [constructor|exact H]. Qed.
Lemma keeps_lives id s s' : keeps id s s' -> lives id s -> lives id s'.
Proof.
  intros Hk (m & p & (tr0 & p0 & Hb & Hl) & Hp). destruct (keeps_lsteps _ _ _ _ _ Hk Hp) as (p' & Hl' & Hp').
  exists m, p'. split; [|assumption]. exists tr0, p0. split; [assumption|]. exact (lsteps_trans _ _ _ _ _ _ _ _ Hl Hl').
Qed.

(* the effect of calls on all messages except possibly [x]: old ones are kept, new ones live as they should *)
Record Fr (x : option N) (s s' : ep) : Prop := mkFr {
  fr_wf : WF s';
  fr_now : e_now s' = e_now s;
  fr_recov : e_recov s' = e_recov s;
  fr_next : e_next s <= e_next s';
  fr_old : forall id, id < e_next s -> x <> Some id -> keeps id s s';
  fr_born : forall id, e_next s <= id -> id < e_next s' -> lives id s';
}.
Lemma fr_refl x s : WF s -> Fr x s s.
Proof. intros H. constructor; try reflexivity; [assumption|intros; apply keeps_refl|lia]. Qed.
Lemma fr_trans x s1 s2 s3 : Fr x s1 s2 -> Fr x s2 s3 -> (forall id, x = Some id -> id < e_next s1) -> Fr x s1 s3.
Proof.
  intros [A1 A2 A3 A4 A5 A6] [B1 B2 B3 B4 B5 B6] Hx. constructor; try congruence; [lia| |].
  - intros id Hid Hn. apply (keeps_trans id s1 s2 s3); [auto|]. apply B5; [lia|assumption].
  - intros id H1 H2. destruct (id <? e_next s2) eqn:E.
    + apply (keeps_lives id s2 s3); [|apply A6; lia]. apply B5; [lia|]. intros ->. specialize (Hx id eq_refl). lia.
    + apply B6; lia.
Qed.
Lemma fr_weaken x s s' : Fr None s s' -> Fr x s s'.
Proof. intros [A1 A2 A3 A4 A5 A6]. constructor; try assumption. intros id H1 H2. apply A5; [assumption|discriminate]. Qed.

(* a change of message [id] only *)
Lemma fr_log x id s o : WF s -> (forall i, about i o = true -> x = Some i) -> x = Some id -> id < e_next s -> Fr x s (log o s).
Proof.
  intros H Ho -> Hid. assert (Hf : forall i, Some id <> Some i -> about i o = false).
  { intros i Hi. destruct (about i o) eqn:E; [|reflexivity]. apply Ho in E. congruence. }
  constructor; try reflexivity.
  - apply wf_log; [assumption|]. intros i Hi. apply Hf. intros [= ->]. lia.
  - intros i Hi Hne. left. cbn. rewrite (Hf i Hne). split; reflexivity.
  - cbn. lia.
Qed.
Lemma fr_log_none x s o : WF s -> (forall i, about i o = false) -> Fr x s (log o s).
Proof.
  intros H Ho. constructor; try reflexivity.
  - apply wf_log; [assumption|]. intros i Hi. apply Ho.
  - intros i Hi Hne. left. cbn. rewrite (Ho i). split; reflexivity.
  - cbn. lia.
Qed.

(* ---------------------------------------------------------------- closing *)

Lemma tr_frees id l : NoDup (map q_id l) ->
  tr_of id (rev (map (fun q => OFree (q_id q)) l)) = if has_id id l then [OFree id] else [].
Proof.
  intros H. induction l as [|x l IH]; cbn; [reflexivity|]. inversion H as [|? ? H1 H2]; subst.
  unfold tr_of in *. rewrite filter_app, (IH H2). cbn. destruct (q_id x =? id) eqn:E; cbn.
  - assert (has_id id l = false) as ->.
    { rewrite has_id_find. destruct (find_id id l) eqn:F; [|reflexivity]. apply find_id_some in F. exfalso. apply H1.
      apply in_map_iff. exists q. split; [lia|tauto]. }
    apply N.eqb_eq in E. rewrite E. reflexivity.
  - rewrite app_nil_r. reflexivity.
Qed.
Lemma close_fr s : cl = true -> WF s -> Fr None s (ep_close s).
Proof.
  intros Hc H. assert (Ht : forall id, tr_of id (e_trace (ep_close s)) = (if has_id id (e_reqs s ++ e_resps s) then [OFree id] else []) ++ tr_of id (e_trace s)).
  { intros id. cbn. unfold tr_of. rewrite filter_app. f_equal. apply tr_frees. apply wf_nodup. assumption. }
  assert (Hh : forall id, has_id id (e_reqs s ++ e_resps s) = false <-> ent id s = (None, None)).
  { intros id. unfold ent, has_id. rewrite existsb_app. fold (has_id id (e_reqs s)). fold (has_id id (e_resps s)). rewrite !has_id_find.
    destruct (find_id id (e_reqs s)), (find_id id (e_resps s)); cbn; split; congruence. }
  constructor; try reflexivity.
  - constructor; cbn [e_reqs e_resps e_next ep_close]; [constructor|cbn; tauto| |cbn; tauto|cbn; tauto]. intros id Hid. rewrite Ht.
    rewrite (proj2 (Hh id) (wf_ent_none s id H Hid)). exact (wf_new s H id Hid).
  - intros id Hid _. unfold keeps. rewrite Ht. destruct (has_id id (e_reqs s ++ e_resps s)) eqn:E.
    + right. repeat split; [assumption|]. intros He. apply Hh in He. congruence.
    + left. split; [reflexivity|]. apply Hh in E. rewrite E. reflexivity.
  - cbn. lia.
Qed.

(* ---------------------------------------------------------------- sending *)

Lemma fr_same x s s' : WF s -> e_reqs s' = e_reqs s -> e_resps s' = e_resps s -> e_trace s' = e_trace s -> e_now s' = e_now s ->
  e_recov s' = e_recov s -> e_next s' = e_next s -> Fr x s s'.
Proof.
  intros [H1 H2 H3 H4 H5] A B C E F G. constructor; try assumption.
  - constructor; rewrite ?A, ?B, ?C, ?G; assumption.
  - lia.
  - intros. left. unfold ent. rewrite A, B, C. split; reflexivity.
  - lia.
Qed.
Lemma send_none_fr s to bs snd : WF s -> Fr None s (fst (send_data s None to bs snd)).
Proof. intros H. unfold send_data. destruct (e_open s && snd); apply fr_log_none; try assumption; reflexivity. Qed.
Lemma tx_data_fr s to h ies snd s' : WF s -> tx_data s to h ies snd = Ok s' -> Fr None s s'.
Proof.
  intros H. unfold tx_data. destruct (encode_msg h ies); intros E; try discriminate; injection E as <-.
  - apply send_none_fr. assumption.
  - apply fr_log_none; [assumption|reflexivity].
Qed.
Lemma heartbeat_fr s to snd s' : WF s -> tx_heartbeat_req s to snd = Ok s' -> Fr None s s'.
Proof.
  intros H. unfold tx_heartbeat_req. intros E.
  assert (H1 : Fr None s (set_seq (next_seq_nr (e_seq s)) s)) by (apply fr_same; try assumption; reflexivity).
  assert (H2 : Fr None (set_seq (next_seq_nr (e_seq s)) s) (log (OSeq None (next_seq_nr (e_seq s))) (set_seq (next_seq_nr (e_seq s)) s)))
    by (apply fr_log_none; [exact (fr_wf _ _ _ H1)|reflexivity]).
  eapply fr_trans; [exact H1| |discriminate]. eapply fr_trans; [exact H2| |discriminate].
  eapply tx_data_fr; [exact (fr_wf _ _ _ H2)|exact E].
Qed.

(* message [id] during osmo_pfcp_endpoint_tx(): not in the queues, [T] observed *)
Record mid (s0 : ep) (id : N) (T : list out) (s : ep) : Prop := mkMid {
  mid_fr : Fr (Some id) s0 s; mid_lt : id < e_next s0; mid_T : tr_of id (e_trace s) = T; mid_ent : ent id s = (None, None)
}.
Lemma mid_log s0 id T s o : mid s0 id T s -> about id o = true -> (forall i, about i o = true -> i = id) -> mid s0 id (o :: T) (log o s).
Proof.
  intros [A B C E] Ho Hi. constructor; [|assumption| |exact E].
  - eapply fr_trans; [exact A| |].
    + eapply fr_log with (id := id); [exact (fr_wf _ _ _ A)| |reflexivity|pose proof (fr_next _ _ _ A); lia].
      intros i Hi'. rewrite (Hi i Hi'). reflexivity.
    + intros i [= <-]. assumption.
  - unfold tr_of. cbn [e_trace log filter]. rewrite Ho. f_equal. exact C.
Qed.
Lemma mid_calls s0 id T s s' : mid s0 id T s -> Fr None s s' -> mid s0 id T s'.
Proof.
  intros [A B C E] F. assert (Hk : keeps id s s'). { apply (fr_old _ _ _ F); [pose proof (fr_next _ _ _ A); lia|discriminate]. }
  destruct Hk as [[H1 H2]|(_ & H & _)]; [|congruence]. constructor; [|assumption|congruence|congruence].
  eapply fr_trans; [exact A|apply fr_weaken; exact F|]. intros i [= <-]. assumption.
Qed.
Ltac aboutid := cbn; intros; try (rewrite N.eqb_refl; reflexivity); try (apply N.eqb_eq; assumption); try lia.

Definition cb_ok (cb : ep -> res ep) : Prop := forall s s', WF s -> cb s = Ok s' -> Fr None s s'.

Lemma mid_fail_cb cb s0 id m s s' T : cb_ok cb -> mid s0 id T s ->
  (if negb (mi_resp m) && mi_cb m then cb (log (OResp id None) s) else Ok s) = Ok s' -> mid s0 id (fail_cb id m ++ T) s'.
Proof.
  intros Hcb Hm. unfold fail_cb. destruct (negb (mi_resp m) && mi_cb m).
  - intros E. assert (M : mid s0 id (OResp id None :: T) (log (OResp id None) s)) by (apply mid_log; [assumption|aboutid..]).
    eapply mid_calls; [exact M|]. apply Hcb; [exact (fr_wf _ _ _ (mid_fr _ _ _ _ M))|exact E].
  - intros [= <-]. assumption.
Qed.

Lemma wf_add_req s q : WF s -> ent (q_id q) s = (None, None) -> q_id q < e_next s -> is_response (hd_type (q_h q)) = false -> WF (set_reqs (q :: e_reqs s) s).
Proof.
  intros H He Hl Hr. apply wf_sub; [assumption| | | |].
  - cbn [app map]. constructor; [|apply wf_nodup; assumption]. unfold ent in He. injection He as H1 H2.
    rewrite map_app, in_app_iff. apply find_id_none in H1. apply find_id_none in H2. tauto.
  - intros x [<-|Hx]; [assumption|]. exact (wf_lt s H x Hx).
  - intros x [<-|Hx]; [assumption|]. exact (wf_rq s H x Hx).
  - apply wf_rs. assumption.
Qed.
Lemma wf_add_resp s q : WF s -> ent (q_id q) s = (None, None) -> q_id q < e_next s -> is_response (hd_type (q_h q)) = true -> WF (set_resps (e_resps s ++ [q]) s).
Proof.
  intros H He Hl Hr. apply wf_sub; [assumption| | | |].
  - rewrite app_assoc, map_app. cbn [map]. unfold ent in He. injection He as H1 H2.
    apply find_id_none in H1. apply find_id_none in H2.
    assert (H3 : ~ In (q_id q) (map q_id (e_reqs s ++ e_resps s))) by (rewrite map_app, in_app_iff; tauto).
    pose proof (wf_nodup s H) as Hn. revert H3 Hn. generalize (map q_id (e_reqs s ++ e_resps s)). intros l.
    induction l as [|y l IH]; cbn; intros H3 Hn; [constructor; [tauto|constructor]|]. inversion Hn; subst.
    constructor; [rewrite in_app_iff; cbn; intuition|]. apply IH; tauto.
  - intros x Hx. rewrite app_assoc, in_app_iff in Hx. destruct Hx as [Hx|[<-|[]]]; [exact (wf_lt s H x Hx)|assumption].
  - apply wf_rq. assumption.
  - intros x Hx. rewrite in_app_iff in Hx. destruct Hx as [Hx|[<-|[]]]; [exact (wf_rs s H x Hx)|assumption].
Qed.

Lemma fr_open_tx s s1 s' : WF s -> e_next s1 = e_next s + 1 -> e_now s1 = e_now s -> e_recov s1 = e_recov s ->
  (forall i, i <> e_next s -> tr_of i (e_trace s1) = tr_of i (e_trace s)) -> (forall i, ent i s1 = ent i s) ->
  Fr (Some (e_next s)) s1 s' -> lives (e_next s) s' -> Fr None s s'.
Proof.
  intros H A B C T E [F1 F2 F3 F4 F5 F6] L. constructor; try congruence; [lia| |].
  - intros id Hid _. assert (Hk : keeps id s1 s') by (apply F5; [lia|intros [= ?]; lia]).
    unfold keeps in *. rewrite (T id), (E id) in Hk by lia. exact Hk.
  - intros id H1 H2. destruct (id =? e_next s) eqn:Ei; [apply N.eqb_eq in Ei; rewrite Ei; assumption|]. apply F6; lia.
Qed.

Lemma ep_tx_fr cb s to h ies has_cb snd s' : cb_ok cb -> WF s -> ep_tx c cb s to h ies has_cb snd = Ok s' -> Fr None s s'.
Proof.
  intros Hcb H. unfold ep_tx. set (id := e_next s). set (resp := is_response (hd_type h)).
  set (s1 := log (OTx id to h ies has_cb) (set_next (id + 1) s)).
  set (nr := if resp then hd_seq h else next_seq_nr (e_seq s1)).
  set (s2 := if resp then s1 else log (OSeq (Some id) nr) (set_seq nr s1)).
  set (h' := mkHdr (hd_version h) (hd_type h) (hd_prio h) (hd_seid h) nr). cbv zeta.
  change (hd_type h') with (hd_type h).
  assert (W1 : WF s1).
  { destruct H as [H1 H2 H3 H4 H5]. constructor; cbn; [assumption| | |assumption|assumption].
    - intros q Hq. specialize (H2 q Hq). lia.
    - intros i Hi. replace (id =? i) with false by lia. apply H3. unfold id in Hi. lia. }
  assert (E0 : forall i, ent i s1 = ent i s) by reflexivity.
  assert (N1 : e_next s1 = id + 1) by reflexivity.
  assert (T1 : tr_of id (e_trace s1) = [OTx id to h ies has_cb]).
  { cbn. rewrite N.eqb_refl. f_equal. exact (wf_new s H id (N.le_refl _)). }
  assert (M2 : forall bs, mid s1 id (tx_start id (mkMinfo to h ies has_cb nr bs)) s2).
  { intros bs. unfold s2, tx_start, mi_resp. cbn [mi_h mi_to mi_ies mi_cb mi_nr]. fold resp.
    assert (M : mid s1 id [OTx id to h ies has_cb] (if resp then s1 else set_seq nr s1)).
    { constructor.
      - destruct resp; [apply fr_refl; assumption|apply fr_same; try assumption; reflexivity].
      - lia.
      - destruct resp; exact T1.
      - destruct resp; exact (wf_ent_none s id H (N.le_refl _)). }
    destruct resp; [exact M|]. apply mid_log; [exact M|aboutid..]. }
  assert (LV : forall s', (exists m p, birth c id m (tr_of id (e_trace s')) p /\ in_phase s' id m p) -> Fr (Some id) s1 s' -> Fr None s s').
  { intros s3 (m & p & Hb & Hp) F. eapply fr_open_tx with (s1 := s1); try reflexivity; [assumption| |exact F|].
    - intros i Hi. cbn. fold id in Hi. replace (id =? i) with false by lia. reflexivity.
    - exists m, p. split; [|assumption]. exists (tr_of id (e_trace s3)), p. split; [assumption|constructor]. }
  assert (FAIL : forall bs s3 s4, mid s1 id (OSendErr (Some id) :: tx_start id (mkMinfo to h ies has_cb nr bs)) s3 ->
    bind (if negb resp && has_cb then cb (log (OResp id None) s3) else Ok s3) (fun s => Ok (log (ORet id false) (log (OFree id) s))) = Ok s4 ->
    Fr None s s4).
  { intros bs s3 s4 M E. inv_bind E. injection E as <-.
    eapply (mid_fail_cb cb s1 id (mkMinfo to h ies has_cb nr bs)) in M; [|exact Hcb|eassumption].
    eapply mid_log with (o := OFree id) in M; [|aboutid..]. eapply mid_log with (o := ORet id false) in M; [|aboutid..].
    apply LV; [|exact (mid_fr _ _ _ _ M)]. exists (mkMinfo to h ies has_cb nr bs), PGone. rewrite (mid_T _ _ _ _ M).
    split; [constructor|]. apply gone_in_phase. exact (mid_ent _ _ _ _ M). }
  destruct (encode_msg h' (put_node_id (c_node c) (hd_type h) ies)) as [bs|e|u] eqn:En; [| |discriminate].
  2:{ intros E. apply (FAIL [] (log (OSendErr (Some id)) s2) s'); [|exact E]. apply mid_log; [apply M2|aboutid..]. }
  set (m := mkMinfo to h ies has_cb nr bs).
  assert (ENC : encoded c m).
  { split; [exact En|]. unfold mi_resp, m. cbn [mi_h mi_nr]. fold resp. intros R. unfold nr. rewrite R. reflexivity. }
  unfold send_data. destruct (e_open s2 && snd).
  2:{ intros E. apply (FAIL bs (log (OSendErr (Some id)) s2) s'); [|exact E]. apply mid_log; [apply M2|aboutid..]. }
  specialize (M2 bs). fold m in M2. set (s3 := log (OSend (Some id) (e_now s2) to bs) s2).
  assert (M3 : mid s1 id (OSend (Some id) (e_now s2) (mi_to m) (mi_bs m) :: tx_start id m) s3).
  { apply mid_log; [exact M2|aboutid..]. }
  unfold queue_add. change (hd_type h') with (hd_type h). fold resp. destruct ((c_n1 c =? 0) || (c_t1 c =? 0)) eqn:Ez.
  - intros E. inv_bind E. injection E as <-.
    eapply (mid_fail_cb cb s1 id m) in M3; [|exact Hcb|eassumption]. eapply mid_log with (o := ORet id true) in M3; [|aboutid..].
    apply LV; [|exact (mid_fr _ _ _ _ M3)]. exists m, PGone. rewrite (mid_T _ _ _ _ M3).
    split; [constructor; [lia|exact ENC]|]. apply gone_in_phase. exact (mid_ent _ _ _ _ M3).
  - cbn [bind]. set (q := mkQe id to h' bs has_cb _ _). intros [= <-].
    set (s4 := if resp then set_resps (e_resps s3 ++ [q]) s3 else set_reqs (q :: e_reqs s3) s3).
    assert (Hlt : id < e_next s3) by (pose proof (fr_next _ _ _ (mid_fr _ _ _ _ M3)); lia).
    assert (W4 : WF s4).
    { pose proof (fr_wf _ _ _ (mid_fr _ _ _ _ M3)). pose proof (mid_ent _ _ _ _ M3).
      unfold s4. destruct resp eqn:R; [apply wf_add_resp|apply wf_add_req]; assumption. }
    assert (Tr4 : e_trace s4 = e_trace s3) by (unfold s4; destruct resp; reflexivity).
    assert (Nx4 : e_next s4 = e_next s3) by (unfold s4; destruct resp; reflexivity).
    assert (F4 : Fr (Some id) s3 s4).
    { constructor.
      - assumption.
      - unfold s4; destruct resp; reflexivity.
      - unfold s4; destruct resp; reflexivity.
      - lia.
      - intros i Hi Hne. left. rewrite Tr4. split; [reflexivity|].
        assert (id =? i = false) by (apply N.eqb_neq; congruence).
        unfold s4, ent. destruct resp; cbn [e_reqs e_resps set_reqs set_resps].
        + rewrite find_app1. change (q_id q) with id. rewrite H0. destruct (find_id i (e_resps s3)); reflexivity.
        + rewrite find_cons. change (q_id q) with id. rewrite H0. reflexivity.
      - lia. }
    assert (F5 : Fr (Some id) s1 (log (ORet id true) s4)).
    { eapply fr_trans; [exact (mid_fr _ _ _ _ M3)| |intros i [= <-]; exact (mid_lt _ _ _ _ M3)].
      eapply fr_trans; [exact F4| |intros i [= <-]; exact Hlt].
      eapply fr_log with (id := id); [assumption| |reflexivity|lia]. cbn. intros i Hi. f_equal. lia. }
    apply LV; [|exact F5]. assert (Tr5 : tr_of id (e_trace (log (ORet id true) s4)) = ORet id true :: OSend (Some id) (e_now s2) (mi_to m) (mi_bs m) :: tx_start id m).
    { change (e_trace (log (ORet id true) s4)) with (ORet id true :: e_trace s4). rewrite Tr4. unfold tr_of. cbn [filter about]. rewrite N.eqb_refl. f_equal. exact (mid_T _ _ _ _ M3). }
    change (exists m0 p, birth c id m0 (tr_of id (e_trace (log (ORet id true) s4))) p /\ in_phase (log (ORet id true) s4) id m0 p). rewrite Tr5. pose proof (mid_ent _ _ _ _ M3) as He.
    pose proof (f_equal fst He : find_id id (e_reqs s3) = None) as He1. pose proof (f_equal Datatypes.snd He : find_id id (e_resps s3) = None) as He2.
    assert (Hn1 : c_n1 c <> 0) by lia. assert (Ht1 : c_t1 c <> 0) by lia.
    exists m. destruct resp eqn:R.
    + exists (PCached (e_now s2 + c_keep c)). split; [constructor; assumption|]. split; [exact He1|].
      change (find_id id (e_resps s3 ++ [q]) = Some q). rewrite find_app1, He2. change (q_id q) with id. rewrite N.eqb_refl. reflexivity.
    + exists (PWait (c_n1 c) (e_now s2 + c_t1 c)). split; [constructor; assumption|]. split; [|exact He2].
      change (find_id id (q :: e_reqs s3) = Some q). rewrite find_cons. change (q_id q) with id. rewrite N.eqb_refl. reflexivity.
Qed.
End Frame.
