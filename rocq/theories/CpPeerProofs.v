(* CpPeerProofs.v -- proofs about CpPeerModel.v: association *)
From Verif Require Import Base BaseProofs GtlvModel DecEncModel IesModel IesProofs TablesModel MsgModel EndpointModel EndpointSpec
  EndpointProofs EndpointRun EndpointLife EndpointFinal EndpointProps EndpointExt EndpointProps2 EndpointProps3 CpPeerModel CpPeerSpec.

(* ---------------------------------------------------------------- order of what the endpoint does *)
Lemma tr_of_app id a b : tr_of id (a ++ b) = tr_of id a ++ tr_of id b.
Proof. apply filter_app. Qed.
Definition is_tx (id : N) (o : out) : bool := match o with OTx i _ _ _ _ => i =? id | _ => false end.
Lemma life_tx_last c D cl id m tr p : life c D cl id m tr p ->
  exists X, tr = X ++ [OTx id (mi_to m) (mi_h m) (mi_ies m) (mi_cb m)] /\ existsb (is_tx id) X = false.
Proof.
  intros (tr0 & p0 & B & L). induction L as [|tr1 p1 tr2 p2 L IH S].
  - assert (F : existsb (is_tx id) (fail_cb id m) = false) by (unfold fail_cb; destruct (_ && _); reflexivity).
    inversion B; subst; unfold tx_start; destruct (mi_resp m) eqn:R; cbn [app];
      try (match goal with |- exists X, ?l = X ++ [?o] /\ _ =>
        let rec go l acc := match l with [o] => exists acc | ?x :: ?t => go t constr:(acc ++ [x]) | ?a ++ ?t => go t constr:(acc ++ a) end in go l (@nil out) end;
        split; [rewrite <- ?app_assoc; reflexivity|rewrite ?existsb_app, ?F; reflexivity]).
  - destruct IH as (X & -> & HX). assert (F : existsb (is_tx id) (fail_cb id m) = false) by (unfold fail_cb; destruct (_ && _); reflexivity).
    inversion S; subst;
      match goal with |- exists X0, ?l = X0 ++ [?o] /\ _ =>
        let rec go l acc := match l with X ++ [o] => exists (acc ++ X) | ?x :: ?t => go t constr:(acc ++ [x]) | ?a ++ ?t => go t constr:(acc ++ a) end in go l (@nil out) end;
      (split; [rewrite <- ?app_assoc; reflexivity|rewrite ?existsb_app, ?F, ?HX; try reflexivity]).
    destruct disp, (mi_cb m); reflexivity.
Qed.
Lemma life_ret c D cl id m tr p : life c D cl id m tr p -> In (ORet id false) tr ->
  p = PGone /\ tr = ORet id false :: OFree id :: fail_cb id m ++ OSendErr (Some id) :: tx_start id m.
Proof.
  intros (tr0 & p0 & B & L) H.
  assert (NF : ~ In (ORet id false) (fail_cb id m)) by (unfold fail_cb; destruct (_ && _); cbn; intuition discriminate).
  assert (NT : ~ In (ORet id false) (tx_start id m)) by (unfold tx_start; destruct (mi_resp m); cbn; intuition discriminate).
  induction L as [|tr1 p1 tr2 p2 L IH S].
  - inversion B; subst; [split; reflexivity|exfalso..]; cbn [In] in H; rewrite ?in_app_iff in H; cbn [In] in H; intuition congruence.
  - assert (H1 : In (ORet id false) tr1).
    { inversion S; subst; cbn [In] in H; rewrite ?in_app_iff in H; cbn [In] in H; try (intuition congruence).
      destruct disp, (mi_cb m); cbn [In] in H; intuition congruence. }
    destruct (IH H1) as [-> ->]. inversion S; subst; congruence.
Qed.
Lemma tr_of_split id A o B : about id o = true -> tr_of id (A ++ o :: B) = tr_of id A ++ o :: tr_of id B.
Proof. intros H. rewrite tr_of_app, tr_of_cons, H. reflexivity. Qed.

Lemma nil_or {A} (l : list A) : l = [] \/ l <> [].
Proof. destruct l; [left; reflexivity|right; discriminate]. Qed.

Section Order.
Variables (c : ep_cfg) (s : ep).
Hypothesis (R : reachable c s).

Lemma about_life id o : In o (e_trace s) -> about id o = true -> exists m p, known c (D_le (e_now s)) true s id m p.
Proof. intros H Ha. apply reach_known; [exact R|]. eapply wf_about; [exact (reach_wf c s R)|exact H|exact Ha]. Qed.
(* osmo_pfcp_endpoint_tx() comes before everything else about a message *)
Lemma tx_first A o B id : e_trace s = A ++ o :: B -> about id o = true -> is_tx id o = false -> exists to h ies cb, In (OTx id to h ies cb) B.
Proof.
  intros E Ha Ht. destruct (about_life id o) as (m & p & K); [rewrite E; apply in_elt|exact Ha|].
  destruct (life_tx_last _ _ _ _ _ _ _ (kn_life _ _ _ _ _ _ _ K)) as (X & EX & _). rewrite E, (tr_of_split id A o B Ha) in EX.
  destruct (nil_or (tr_of id B)) as [EB|NB].
  - rewrite EB in EX. apply app_inj_tail in EX. destruct EX as [_ ->]. cbn in Ht. rewrite N.eqb_refl in Ht. discriminate.
  - destruct (exists_last NB) as (Y & y & EY). rewrite EY in EX. rewrite app_comm_cons, app_assoc in EX. apply app_inj_tail in EX. destruct EX as [_ ->].
    do 4 eexists. apply (proj1 (in_tr_of id _ _ (N.eqb_refl id : about id (OTx id _ _ _ _) = true))). rewrite EY. apply in_elt.
Qed.
(* it is called once *)
Lemma tx_once A to h ies cb B id : e_trace s = A ++ OTx id to h ies cb :: B -> existsb (is_tx id) (A ++ B) = false.
Proof.
  intros E. destruct (about_life id (OTx id to h ies cb)) as (m & p & K); [rewrite E; apply in_elt|apply N.eqb_refl|].
  destruct (life_tx_last _ _ _ _ _ _ _ (kn_life _ _ _ _ _ _ _ K)) as (X & EX & NX). rewrite E, (tr_of_split id A _ B) in EX by apply N.eqb_refl.
  assert (EB : tr_of id B = []).
  { destruct (nil_or (tr_of id B)) as [EB|NB]; [exact EB|]. exfalso. destruct (exists_last NB) as (Y & y & EY).
    rewrite EY, app_comm_cons, app_assoc in EX. apply app_inj_tail in EX. destruct EX as [<- _].
    rewrite existsb_app in NX. cbn in NX. rewrite N.eqb_refl in NX. destruct (existsb (is_tx id) (tr_of id A)); discriminate. }
  rewrite EB in EX. apply app_inj_tail in EX. destruct EX as [EA _]. subst X.
  assert (G : forall l, existsb (is_tx id) (tr_of id l) = existsb (is_tx id) l).
  { induction l as [|o l IH]; [reflexivity|]. rewrite tr_of_cons. destruct (about id o) eqn:Ea; cbn [existsb]; [rewrite IH; reflexivity|].
    rewrite IH. destruct o; try reflexivity. cbn in Ea |- *. rewrite Ea. reflexivity. }
  rewrite existsb_app, <- (G A), NX, <- (G B), EB. reflexivity.
Qed.
(* an error return of osmo_pfcp_endpoint_tx() comes after the failure callback *)
Lemma ret_after_fail A B id to h ies : e_trace s = A ++ ORet id false :: B -> In (OTx id to h ies true) (e_trace s) -> is_response (hd_type h) = false ->
  In (OResp id None) B.
Proof.
  intros E Ht Hr. destruct (about_life id (ORet id false)) as (m & p & K); [rewrite E; apply in_elt|apply N.eqb_refl|].
  destruct (known_tx _ _ _ _ _ _ _ _ _ _ _ K Ht) as (_ & Hh & _ & Hc).
  destruct (life_ret _ _ _ _ _ _ _ (kn_life _ _ _ _ _ _ _ K)) as [_ ET].
  { apply in_tr_of; [apply N.eqb_refl|]. rewrite E. apply in_elt. }
  rewrite E, (tr_of_split id A _ B) in ET by apply N.eqb_refl. unfold fail_cb, mi_resp in ET. rewrite Hh, Hr, Hc in ET. cbn [negb andb app] in ET.
  assert (EA : tr_of id A = []).
  { destruct (tr_of id A) as [|a [|a1 X]]; [reflexivity|exfalso..]; cbn [app] in ET.
    - injection ET. intros. discriminate.
    - injection ET. intros ET' _ _. assert (H0 : In (ORet id false) (OResp id None :: OSendErr (Some id) :: tx_start id m)) by (rewrite <- ET'; apply in_elt).
      unfold tx_start in H0. destruct (mi_resp m); cbn in H0; intuition discriminate. }
  rewrite EA in ET. cbn [app] in ET. injection ET as ET. apply (proj1 (in_tr_of id _ _ (N.eqb_refl id : about id (OResp id None) = true))). rewrite ET. cbn. auto.
Qed.
(* the response callback is called once *)
Lemma resp_unique A id r B : e_trace s = A ++ OResp id r :: B -> forall r', ~ In (OResp id r') (A ++ B).
Proof.
  intros E r' H. pose proof (resp_cb_once c s id R) as C. rewrite E, count_app, count_cons in C. cbn [is_resp_cb] in C. rewrite N.eqb_refl in C.
  assert (C1 : count (is_resp_cb id) (A ++ B) <> 0).
  { apply in_split in H. destruct H as (a & b & ->). rewrite count_app, count_cons. cbn [is_resp_cb]. rewrite N.eqb_refl. lia. }
  rewrite count_app in C1. lia.
Qed.
End Order.

(* ---------------------------------------------------------------- logs *)
Lemma ep_obs_app k a b : ep_obs k (a ++ b) = ep_obs k a ++ ep_obs k b.
Proof. induction a as [|v a IH]; [reflexivity|]. destruct v; cbn [app ep_obs]; rewrite ?IH; reflexivity. Qed.
Lemma ep_obs_in k o l : In (VEp o) l -> In o (ep_obs k l).
Proof. induction l as [|v l IH]; [intros []|]. intros [->|H]; [left; reflexivity|]. destruct v; cbn [ep_obs In]; auto. Qed.
Lemma ep_obs_own k id l : In (VOwnTx id) l -> In (OTx id (k_remote k) assoc_hdr (assoc_ies k) true) (ep_obs k l).
Proof. induction l as [|v l IH]; [intros []|]. intros [->|H]; [left; reflexivity|]. destruct v; cbn [ep_obs In]; auto. Qed.
Lemma ep_obs_back k o l : In o (ep_obs k l) -> In (VEp o) l \/ exists id, In (VOwnTx id) l /\ o = OTx id (k_remote k) assoc_hdr (assoc_ies k) true.
Proof.
  induction l as [|v l IH]; [intros []|]. destruct v; cbn [ep_obs In];
    try (intros H; destruct (IH H) as [A|(i & A & B)]; [left; right; exact A|right; exists i; split; [right; exact A|exact B]]).
  - intros [<-|H]; [right; exists id; split; [left|]; reflexivity|]. destruct (IH H) as [A|(i & A & B)]; [left; right; exact A|right; exists i; split; [right; exact A|exact B]].
  - intros [<-|H]; [left; left; reflexivity|]. destruct (IH H) as [A|(i & A & B)]; [left; right; exact A|right; exists i; split; [right; exact A|exact B]].
Qed.
Lemma p_run_app k a : forall p b, p_run k p (a ++ b) = match p_run k p a with POk p' => p_run k p' b | PNo => PNo | PUB u => PUB u end.
Proof. induction a as [|v a IH]; intros p b; [reflexivity|]. cbn [app p_run]. destruct (p_step k p v); [apply IH|reflexivity|reflexivity]. Qed.
Lemma p_run_snoc k p a v p2 : p_run k p (a ++ [v]) = POk p2 -> exists p1, p_run k p a = POk p1 /\ p_step k p1 v = POk p2.
Proof.
  rewrite p_run_app. destruct (p_run k p a) as [p1| |]; [|discriminate|discriminate]. cbn [p_run].
  destruct (p_step k p1 v) as [p'| |] eqn:E; [|discriminate|discriminate]. intros [= <-]. exists p1. auto.
Qed.

Lemma accepts_pos r : match r with
  | Some (h, ies) => match resp_cause h ies with Some (IvNum 1) => true | _ => false end | None => false end = accepts r.
Proof.
  unfold accepts. destruct r as [[h ies]|]; [|reflexivity]. destruct (resp_cause h ies) as [v|]; [|reflexivity]. destruct v; try reflexivity.
  all: try (destruct n as [|[n|n|]]; reflexivity).
Qed.
Lemma on_assoc_resp_eq k id r p : on_assoc_resp k id r p =
  if existsb (N.eqb id) (p_null p) then PUB NullDeref else if accepts r then dispatch k PeAssocSetupResp p else POk (state_chg k PsWaitRetry p).
Proof.
  unfold on_assoc_resp. destruct (existsb _ _); [reflexivity|]. rewrite <- accepts_pos. destruct r as [[h ies]|]; [|reflexivity].
  destruct (resp_cause h ies) as [v|]; [|reflexivity]. destruct v; try reflexivity. destruct n as [|[n|n|]]; reflexivity.
Qed.

Section Exec.
Variables (c : ep_cfg) (k : peer_cfg) (s : ep) (l : list pentry).
Hypothesis (R : reachable c s) (EL : ep_obs k l = rev (e_trace s)).

Lemma log_split l1 v l2 o : l = l1 ++ v :: l2 -> ep_obs k [v] = [o] -> e_trace s = rev (ep_obs k l2) ++ o :: rev (ep_obs k l1).
Proof.
  intros E V. rewrite <- (rev_involutive (e_trace s)), <- EL, E, ep_obs_app. change (v :: l2) with ([v] ++ l2). rewrite ep_obs_app, V.
  rewrite !rev_app_distr. cbn [rev app]. rewrite <- app_assoc. reflexivity.
Qed.
Lemma resp_new l1 id r l2 : l = l1 ++ VEp (OResp id r) :: l2 -> forall r', ~ In (VEp (OResp id r')) l1 /\ ~ In (VEp (OResp id r')) l2.
Proof.
  intros E r'. pose proof (resp_unique c s R _ id r _ (log_split _ _ _ _ E eq_refl) r') as H. rewrite in_app_iff, <- !in_rev in H.
  split; intros H1; apply H; apply (ep_obs_in k) in H1; tauto.
Qed.
Lemma own_tr l1 id l2 o : l = l1 ++ l2 -> In (VEp o) l1 -> about id o = true -> is_tx id o = false -> forall a b, l1 = a ++ VEp o :: b -> exists to h ies cb, In (OTx id to h ies cb) (ep_obs k a).
Proof.
  intros E _ Ha Ht a b Ea. rewrite Ea, <- app_assoc in E. cbn [app] in E. destruct (tx_first c s R _ o _ id (log_split a (VEp o) _ o E eq_refl) Ha Ht) as (to & h & ies & cb & H).
  exists to, h, ies, cb. rewrite <- in_rev in H. exact H.
Qed.
Lemma own_new l1 id l2 : l = l1 ++ VOwnTx id :: l2 -> forall r, ~ In (VEp (OResp id r)) l1.
Proof.
  intros E r H. apply in_split in H. destruct H as (a & b & Ea).
  destruct (own_tr l1 id _ (OResp id r) E) with (a := a) (b := b) as (to & h & ies & cb & H); [rewrite Ea; apply in_elt|apply N.eqb_refl|reflexivity|exact Ea|].
  pose proof (tx_once c s R _ _ _ _ _ _ id (log_split _ _ _ _ E eq_refl)) as C.
  assert (X : existsb (is_tx id) (rev (ep_obs k l2) ++ rev (ep_obs k l1)) = true).
  { apply existsb_exists. exists (OTx id to h ies cb). split; [|apply N.eqb_refl]. rewrite in_app_iff. right. rewrite <- in_rev, Ea, ep_obs_app, in_app_iff. left. exact H. }
  congruence.
Qed.
Lemma ret_fail l1 id l2 : l = l1 ++ VEp (ORet id false) :: l2 -> In (VOwnTx id) l1 -> In (VEp (OResp id None)) l1.
Proof.
  intros E H. pose proof (log_split _ _ _ _ E eq_refl) as T. apply (ret_after_fail c s R _ _ id (k_remote k) assoc_hdr (assoc_ies k)) in T; [|rewrite T|reflexivity].
  - rewrite <- in_rev in T. apply ep_obs_back in T. destruct T as [T|(i & _ & T)]; [exact T|discriminate].
  - rewrite in_app_iff. right. right. rewrite <- in_rev. apply ep_obs_own. exact H.
Qed.
(* the callback is called after the request was given to the endpoint *)
Lemma resp_after l1 id r l2 : l = l1 ++ VEp (OResp id r) :: l2 -> In (VOwnTx id) l -> In (VOwnTx id) l1.
Proof.
  intros E H. rewrite E, in_app_iff in H. destruct H as [H|[H|H]]; [exact H|discriminate|exfalso].
  apply in_split in H. destruct H as (a & b & Ea). rewrite Ea in E.
  change (l1 ++ VEp (OResp id r) :: a ++ VOwnTx id :: b) with (l1 ++ [VEp (OResp id r)] ++ a ++ VOwnTx id :: b) in E. rewrite !app_assoc in E.
  apply (own_new _ _ _ E r). rewrite !in_app_iff. cbn. auto.
Qed.

Definition rejected (l1 : list pentry) (i : N) : Prop := exists r, In (VEp (OResp i r)) l1 /\ accepts r = false.
Definition cur (l1 : list pentry) (p : peer) (i : N) : Prop :=
  (forall r, ~ In (VEp (OResp i r)) l1) /\ p_state p = PsWaitAssoc /\ p_timer p = None
  \/ exists r, In (VEp (OResp i r)) l1 /\ if accepts r then p_state p = PsAssociated /\ p_timer p = None else p_state p = PsWaitRetry /\ p_timer p = timeout k PsWaitRetry.
Definition good_obs (o : pobs) : Prop :=
  match o with
  | PoState a b => In (a, b) procedure
  | PoRefused a b => a = PsWaitRetry /\ b = PsWaitRetry
  | PoAssoc b => b = true
  | _ => False
  end.
Record pinv (l1 : list pentry) (p : peer) : Prop := mkPinv {
  pi_ids : forall id, In id (p_ids p) <-> In (VOwnTx id) l1;
  pi_pc : match p_pc p with
          | PcIdle => match p_ids p with [] => p_state p = PsDisabled /\ p_timer p = None | i :: r => Forall (rejected l1) r /\ cur l1 p i end
          | PcIn j => match p_ids p with [] => False | i :: r => j = i /\ Forall (rejected l1) r /\ cur l1 p i end
          | _ => p_state p = PsWaitAssoc /\ p_timer p = None /\ Forall (rejected l1) (p_ids p)
          end;
  pi_obs : Forall good_obs (p_obs p);
  pi_path : leads_to (p_obs p) (p_state p);
  pi_ref : forall a b, In (PoRefused a b) (p_obs p) -> exists id, In (VOwnTx id) l1 /\ In (VEp (ORet id false)) l1;
}.
Lemma ref_mono l1 v (obs : list pobs) : (forall a b, In (PoRefused a b) obs -> exists id, In (VOwnTx id) l1 /\ In (VEp (ORet id false)) l1) ->
  forall a b, In (PoRefused a b) obs -> exists id, In (VOwnTx id) (l1 ++ [v]) /\ In (VEp (ORet id false)) (l1 ++ [v]).
Proof. intros H a b Ha. destruct (H a b Ha) as (id & A & B). exists id. rewrite !in_app_iff. auto. Qed.

Lemma rejected_mono l1 v ids : Forall (rejected l1) ids -> Forall (rejected (l1 ++ [v])) ids.
Proof. intros H. eapply Forall_impl; [|exact H]. intros i (r & A & B). exists r. rewrite in_app_iff. auto. Qed.
Lemma cur_mono l1 v p p' i : cur l1 p i -> (forall r, v <> VEp (OResp i r)) -> p_state p' = p_state p -> p_timer p' = p_timer p -> cur (l1 ++ [v]) p' i.
Proof.
  unfold cur. intros H N E1 E2. rewrite E1, E2. destruct H as [(A & B)|(r & A & B)]; [left|right].
  - split; [|exact B]. intros r H. rewrite in_app_iff in H. destruct H as [H|[H|[]]]; [exact (A r H)|exact (N r H)].
  - exists r. rewrite in_app_iff. auto.
Qed.
Lemma ids_other l1 v p : (forall id, v <> VOwnTx id) -> (forall id, In id (p_ids p) <-> In (VOwnTx id) l1) -> forall id, In id (p_ids p) <-> In (VOwnTx id) (l1 ++ [v]).
Proof. intros N H id. rewrite in_app_iff, H. cbn. split; [tauto|intros [A|[A|[]]]; [exact A|destruct (N id A)]]. Qed.
(* entries that do not touch the state *)
Lemma pinv_same l1 v p p' : pinv l1 p -> (forall id, v <> VOwnTx id) -> (forall i r, In i (p_ids p) -> v <> VEp (OResp i r)) ->
  p_state p' = p_state p -> p_timer p' = p_timer p -> p_pc p' = p_pc p -> p_ids p' = p_ids p -> p_obs p' = p_obs p -> pinv (l1 ++ [v]) p'.
Proof.
  intros [A B C D G] N1 N2 E1 E2 E3 E4 E5. constructor.
  - rewrite E4. apply ids_other; assumption.
  - rewrite E3, E4, E1, E2. destruct (p_pc p); try (destruct B as (B1 & B2 & B3); split; [exact B1|split; [exact B2|apply rejected_mono; exact B3]]).
    + destruct (p_ids p) as [|i ids] eqn:Ei; [exact B|]. destruct B as [B1 B2]. split; [apply rejected_mono; exact B1|].
      eapply cur_mono; [exact B2| |exact E1|exact E2]. intros r. apply N2. left. reflexivity.
    + destruct (p_ids p) as [|i ids] eqn:Ei; [exact B|]. destruct B as (B0 & B1 & B2). split; [exact B0|]. split; [apply rejected_mono; exact B1|].
      eapply cur_mono; [exact B2| |exact E1|exact E2]. intros r. apply N2. left. reflexivity.
  - rewrite E5. exact C.
  - rewrite E5, E1. exact D.
  - rewrite E5. apply ref_mono. exact G.
Qed.
Lemma existsb_in i (x : list N) : existsb (N.eqb i) x = true <-> In i x.
Proof. rewrite existsb_exists. split; [intros (y & A & B); apply N.eqb_eq in B; subst; exact A|intros H; exists i; split; [exact H|apply N.eqb_refl]]. Qed.

(* the response callback *)
Lemma pinv_resp l1 l2 p p' id r : l = l1 ++ VEp (OResp id r) :: l2 -> pinv l1 p -> p_pc p = PcIdle \/ (exists j, p_pc p = PcIn j) ->
  p_resp k id r p = POk p' -> pinv (l1 ++ [VEp (OResp id r)]) p'.
Proof.
  intros E I Hpc H. unfold p_resp in H. destruct (existsb (N.eqb id) (p_ids p)) eqn:Hin.
  2:{ injection H as <-. apply (pinv_same l1 _ p); try reflexivity; try assumption; [discriminate|]. intros i r' Hi [= -> ->].
      apply existsb_in in Hi. congruence. }
  rewrite on_assoc_resp_eq in H. destruct (existsb (N.eqb id) (p_null p)); [discriminate|].
  assert (P : exists ids, p_ids p = id :: ids /\ Forall (rejected l1) ids /\ p_state p = PsWaitAssoc).
  { destruct I as [A B C D G]. apply existsb_in in Hin.
    assert (Q : exists i ids, p_ids p = i :: ids /\ Forall (rejected l1) ids /\ cur l1 p i).
    { destruct Hpc as [Hpc|(j & Hpc)]; rewrite Hpc in B; destruct (p_ids p) as [|i ids]; try contradiction; exists i, ids; tauto. }
    destruct Q as (i & ids & Ei & F & Cu). rewrite Ei in Hin.
    assert (NR : forall r', ~ In (VEp (OResp id r')) l1) by (intros r'; apply (resp_new _ _ _ _ E r')).
    destruct Hin as [->|Hin].
    - exists ids. split; [exact Ei|]. split; [exact F|]. destruct Cu as [(_ & Cu & _)|(r' & Cu & _)]; [exact Cu|destruct (NR _ Cu)].
    - rewrite Forall_forall in F. destruct (F _ Hin) as (r' & F1 & _). destruct (NR _ F1). }
  destruct P as (ids & Ei & F & Es). destruct I as [A B C D G].
  assert (X : p_state p' = (if accepts r then PsAssociated else PsWaitRetry) /\ p_timer p' = (if accepts r then None else timeout k PsWaitRetry)
            /\ p_pc p' = p_pc p /\ p_ids p' = p_ids p /\ Forall good_obs (p_obs p') /\ leads_to (p_obs p') (p_state p') /\ forall a b, In (PoRefused a b) (p_obs p') -> In (PoRefused a b) (p_obs p)).
  { destruct (accepts r).
    - unfold dispatch in H. rewrite Es in H. cbn [in_ok negb] in H. injection H as <-. unfold state_chg. rewrite Es. cbn.
      destruct p as [st ti cb pc is nu ob]. cbn in *. subst st. unfold call_assoc_cb. cbn. destruct cb; cbn;
        (split; [reflexivity|]; split; [reflexivity|]; split; [reflexivity|]; split; [reflexivity|]; split; [repeat (constructor; cbn; try tauto); assumption|];
         split; [repeat (split; try reflexivity); assumption|]; intros a b X; repeat (destruct X as [X|X]; [discriminate|]); exact X).
    - injection H as <-. unfold state_chg. rewrite Es. cbn. destruct p as [st ti cb pc is nu ob]. cbn in *. subst st.
      split; [reflexivity|]. split; [reflexivity|]. split; [reflexivity|]. split; [reflexivity|]. split; [constructor; [cbn; tauto|assumption]|].
      split; [split; [reflexivity|assumption]|]. intros a b [X|X]; [discriminate|exact X]. }
  destruct X as (X1 & X2 & X3 & X4 & X5 & X6 & X7).
  assert (Y : Forall (rejected (l1 ++ [VEp (OResp id r)])) ids /\ cur (l1 ++ [VEp (OResp id r)]) p' id).
  { split; [apply rejected_mono; exact F|]. right. exists r. split; [apply in_elt|]. rewrite X1, X2. destruct (accepts r); split; reflexivity. }
  constructor; [rewrite X4; apply ids_other; [discriminate|exact A]| |exact X5|exact X6|intros a b X; exact (ref_mono l1 _ _ G a b (X7 a b X))].
  rewrite X3, X4, Ei. destruct Hpc as [Hpc|(j & Hpc)]; rewrite Hpc; [exact Y|]. rewrite Hpc, Ei in B. destruct B as [-> _]. split; [reflexivity|exact Y].
Qed.

(* entering WAIT_ASSOC_SETUP_RESP *)
Lemma pinv_enter l1 v p : pinv l1 p -> p_pc p = PcIdle -> p_state p = PsDisabled \/ p_state p = PsWaitRetry -> (forall id, v <> VOwnTx id) ->
  (forall i r, v <> VEp (OResp i r)) -> forall t, pinv (l1 ++ [v]) (state_chg k PsWaitAssoc (mkPeer (p_state p) t (p_cb p) (p_pc p) (p_ids p) (p_null p) (p_obs p))).
Proof.
  intros [A B C D G] Hpc Hs N1 N2 t. rewrite Hpc in B.
  assert (F : Forall (rejected l1) (p_ids p)).
  { destruct (p_ids p) as [|i ids]; [constructor|]. destruct B as [B1 [(_ & B2 & _)|(r & B2 & B3)]]; [destruct Hs; congruence|].
    constructor; [|exact B1]. exists r. split; [exact B2|]. destruct (accepts r); [destruct B3, Hs; congruence|reflexivity]. }
  destruct p as [st ti cb pc is nu ob]. cbn in *. subst pc. unfold state_chg. destruct Hs as [-> | ->]; cbn;
    (constructor; cbn; [apply ids_other with (p := mkPeer PsDisabled None cb PcIdle is nu ob); assumption| |constructor; [cbn; tauto|exact C]|split; [reflexivity|exact D]|intros a b [X|X]; [discriminate|exact (ref_mono l1 _ _ G a b X)]]);
    (split; [reflexivity|]; split; [reflexivity|apply rejected_mono; exact F]).
Qed.

Lemma pinv_step l1 v l2 p p' : l = l1 ++ v :: l2 -> pinv l1 p -> p_step k p v = POk p' -> pinv (l1 ++ [v]) p'.
Proof.
  intros E I H. unfold p_step in H. destruct (p_pc p) eqn:Hpc; try discriminate.
  - destruct v as [|b| | |m rx|m|m|m|m|id|o]; try discriminate; try (injection H as <-; apply (pinv_same l1 _ p); try reflexivity; try assumption; try (symmetry; assumption); discriminate).
    + injection H as <-. unfold associate. destruct (p_state p) eqn:Es.
      1,3: (destruct p as [st ti cb pc is nu ob]; cbn in Es, Hpc; subst; refine (pinv_enter l1 VAssociate (mkPeer _ ti cb PcIdle is nu ob) I eq_refl _ _ _ ti); [auto|discriminate|discriminate]).
      all: try (apply (pinv_same l1 _ p); try reflexivity; try assumption; discriminate).
      exfalso. destruct I as [A B C D G]. rewrite Hpc in B. destruct (p_ids p); [destruct B; congruence|].
      destruct B as [_ [(_ & B & _)|(r & _ & B)]]; [congruence|destruct (accepts r); destruct B; congruence].
    + destruct (p_timer p) as [t|] eqn:Et; [|discriminate]. injection H as <-.
      assert (Es : p_state p = PsWaitRetry).
      { destruct I as [A B C D G]. rewrite Hpc in B. destruct (p_ids p); [destruct B; congruence|].
        destruct B as [_ [(_ & _ & B)|(r & _ & B)]]; [congruence|]. destruct (accepts r); destruct B; [congruence|assumption]. }
      unfold timer_cb. cbn [p_state]. rewrite Es. rewrite <- Es at 1. apply pinv_enter; try assumption; try discriminate; auto.
    + destruct o; try (injection H as <-; apply (pinv_same l1 _ p); try reflexivity; try assumption; discriminate).
      eapply pinv_resp; [exact E|exact I|left; exact Hpc|exact H].
  - destruct v; try discriminate. destruct rx; [discriminate|]. injection H as <-. destruct I as [A B C D G]. rewrite Hpc in B. destruct B as (B1 & B2 & B3).
    constructor; [apply ids_other; [discriminate|exact A]| |exact C|exact D|apply ref_mono; exact G]. cbn. split; [exact B1|]. split; [exact B2|apply rejected_mono; exact B3].
  - destruct v; try discriminate. destruct (m0 =? m); [|discriminate]. injection H as <-. destruct I as [A B C D G]. rewrite Hpc in B. destruct B as (B1 & B2 & B3).
    constructor; [apply ids_other; [discriminate|exact A]| |exact C|exact D|apply ref_mono; exact G]. cbn. split; [exact B1|]. split; [exact B2|apply rejected_mono; exact B3].
  - destruct v; try discriminate. destruct (m0 =? m); [|discriminate]. injection H as <-. destruct I as [A B C D G]. rewrite Hpc in B. destruct B as (B1 & B2 & B3).
    constructor; [apply ids_other; [discriminate|exact A]| |exact C|exact D|apply ref_mono; exact G]. cbn. split; [exact B1|]. split; [exact B2|apply rejected_mono; exact B3].
  - destruct v; try discriminate. injection H as <-. destruct I as [A B C D G]. rewrite Hpc in B. destruct B as (B1 & B2 & B3).
    constructor; [|cbn|exact C|exact D|apply ref_mono; exact G].
    + intros i. cbn. rewrite in_app_iff, A. cbn. split; [intros [->|H]; [right; left; reflexivity|left; exact H]|intros [H|[[= ->]|[]]]; [right; exact H|left; reflexivity]].
    + split; [reflexivity|]. split; [apply rejected_mono; exact B3|]. left. split; [|auto]. intros r Hr. rewrite in_app_iff in Hr.
      destruct Hr as [Hr|[Hr|[]]]; [|discriminate]. exact (own_new _ _ _ E r Hr).
  - destruct v as [|b| | |m rx|m|m|m|m|i|o]; try discriminate. destruct o; try (injection H as <-; apply (pinv_same l1 _ p); try reflexivity; try assumption; discriminate).
    + eapply pinv_resp; [exact E|exact I|right; exists id; exact Hpc|exact H].
    + destruct (id0 =? id) eqn:Ei; [|injection H as <-; apply (pinv_same l1 _ p); try reflexivity; try assumption; discriminate].
      apply N.eqb_eq in Ei. subst id0. destruct I as [A B C D G]. rewrite Hpc in B. destruct (p_ids p) as [|i ids] eqn:Eids; [contradiction|].
      destruct B as (<- & B1 & B2).
      assert (M : Forall (rejected (l1 ++ [VEp (ORet id ok)])) ids /\ cur (l1 ++ [VEp (ORet id ok)]) p id).
      { split; [apply rejected_mono; exact B1|]. eapply cur_mono; [exact B2|discriminate|reflexivity|reflexivity]. }
      destruct ok; injection H as <-.
      * constructor; [cbn; intros j; rewrite Eids, in_app_iff, (A j); cbn; split; [tauto|intros [H|[H|[]]]; [exact H|discriminate]]| |exact C|exact D|apply ref_mono; exact G]. cbn. rewrite Eids. exact M.
      * assert (Hin : In (VOwnTx id) l1) by (apply A; left; reflexivity).
        pose proof (ret_fail _ _ _ E Hin) as HR.
        assert (Es : p_state p = PsWaitRetry).
        { destruct B2 as [(B2 & _)|(r & B2 & B3)]; [destruct (B2 _ HR)|].
          assert (r = None).
          { apply in_split in B2. destruct B2 as (a & b & Ea). rewrite Ea, <- app_assoc in E. cbn [app] in E. pose proof (resp_new _ _ _ _ E None) as [X Y].
            rewrite Ea, in_app_iff in HR. destruct HR as [HR|[HR|HR]]; [destruct (X HR)|congruence|]. destruct Y. rewrite in_app_iff. left. exact HR. }
          subst r. cbn in B3. tauto. }
        unfold state_chg. cbn [p_state set_pc]. rewrite Es. cbn. constructor; cbn.
        -- intros j. rewrite Eids, in_app_iff. cbn. rewrite (A j). split; [tauto|intros [H|[H|[]]]; [exact H|discriminate]].
        -- rewrite Eids. destruct M as [M1 M2]. split; [exact M1|]. destruct M2 as [M2|M2]; [left|right]; exact M2.
        -- constructor; [cbn; auto|exact C].
        -- exact D.
        -- intros a b _. exists id. rewrite !in_app_iff. split; [left; exact Hin|right; left; reflexivity].
Qed.
Lemma pinv_all l1 : forall l2 p, l = l1 ++ l2 -> p_run k peer_alloc l1 = POk p -> pinv l1 p.
Proof.
  induction l1 as [|v l1 IH] using rev_ind; intros l2 p E H.
  - injection H as <-. constructor; cbn; [tauto|auto|constructor|reflexivity|intros a b []].
  - apply p_run_snoc in H. destruct H as (p1 & H1 & H2). rewrite <- app_assoc in E. eapply pinv_step; [exact E| |exact H2]. eapply IH; [exact E|exact H1].
Qed.
End Exec.
