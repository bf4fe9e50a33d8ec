(* CtxProofs.v -- C101 *)
From Verif Require Import Base BaseProofs GtlvModel DecEncModel IesModel TablesModel MsgModel EndpointModel EndpointSpec
  EndpointProofs EndpointRun EndpointLife EndpointFinal EndpointProps EndpointExt EndpointProps2 EndpointProps3 CpPeerModel CpPeerProofs CtxModel CtxSpec.

(* ---------------------------------------------------------------- the endpoint: nothing about a message after it is freed *)
Lemma life_free_last c D cl id m tr p : life c D cl id m tr p -> forall X Y, tr = X ++ OFree id :: Y -> p = PGone /\ (X = [] \/ X = [ORet id false]).
Proof.
  intros (tr0 & p0 & B & L).
  assert (NF : ~ In (OFree id) (fail_cb id m)) by (unfold fail_cb; destruct (_ && _); cbn; intuition discriminate).
  assert (NT : ~ In (OFree id) (tx_start id m)) by (unfold tx_start; destruct (mi_resp m); cbn; intuition discriminate).
  assert (G : forall (a b : out) l X Y, l = X ++ OFree id :: Y -> ~ In (OFree id) l -> False) by (intros a b l X Y -> H; apply H, in_elt).
  assert (K : forall l X Y, OFree id :: l = X ++ OFree id :: Y -> ~ In (OFree id) l -> X = []).
  { intros l X Y E H. destruct X as [|o X]; [reflexivity|]. injection E as _ E. exfalso. apply H. rewrite E. apply in_elt. }
  induction L as [|tr1 p1 tr2 p2 L IH S]; intros X Y E.
  - revert X Y E. inversion B; subst; intros X Y E.
    + split; [reflexivity|]. destruct X as [|o X]; [discriminate|]. cbn [app] in E. injection E as <- E1. right. f_equal. refine (K _ _ _ E1 _). rewrite in_app_iff. cbn. intuition discriminate.
    + exfalso. match goal with H : ?l = X ++ _ |- _ => assert (In (OFree id) l) as Hi by (rewrite H; apply in_elt) end. cbn in Hi. rewrite in_app_iff in Hi. cbn in Hi. intuition discriminate.
    + exfalso. match goal with H : ?l = X ++ _ |- _ => assert (In (OFree id) l) as Hi by (rewrite H; apply in_elt) end. cbn in Hi. intuition discriminate.
    + exfalso. match goal with H : ?l = X ++ _ |- _ => assert (In (OFree id) l) as Hi by (rewrite H; apply in_elt) end. cbn in Hi. intuition discriminate.
  - assert (N1 : p1 <> PGone -> ~ In (OFree id) tr1) by (intros Hp Hi; apply in_split in Hi as (a & b & Hi); apply Hp; exact (proj1 (IH _ _ Hi))).
    assert (Hp : p1 <> PGone) by (inversion S; subst; congruence). specialize (N1 Hp). clear IH.
    revert X Y E. inversion S; subst; intros X Y E.
    + exfalso. match goal with H : ?l = X ++ _ |- _ => assert (In (OFree id) l) as Hi by (rewrite H; apply in_elt) end. cbn in Hi. intuition discriminate.
    + split; [reflexivity|]. left. refine (K _ _ _ E _). rewrite in_app_iff. cbn. intuition discriminate.
    + split; [reflexivity|]. left. refine (K _ _ _ E _). rewrite in_app_iff. cbn. intuition discriminate.
    + split; [reflexivity|]. left. refine (K _ _ _ E _). rewrite !in_app_iff. destruct disp, (mi_cb m); cbn; intuition discriminate.
    + exfalso. match goal with H : ?l = X ++ _ |- _ => assert (In (OFree id) l) as Hi by (rewrite H; apply in_elt) end. cbn in Hi. intuition discriminate.
    + exfalso. match goal with H : ?l = X ++ _ |- _ => assert (In (OFree id) l) as Hi by (rewrite H; apply in_elt) end. cbn in Hi. intuition discriminate.
    + split; [reflexivity|]. left. refine (K _ _ _ E _). cbn. intuition discriminate.
    + split; [reflexivity|]. left. exact (K _ _ _ E N1).
Qed.
Lemma free_last c s A o B id : reachable c s -> e_trace s = A ++ o :: B -> about id o = true -> o <> ORet id false -> ~ In (OFree id) B.
Proof.
  intros R E Ha Hr Hi. destruct (about_life c s R id o) as (m & p & K); [rewrite E; apply in_elt|exact Ha|].
  pose proof (kn_life _ _ _ _ _ _ _ K) as L. apply in_split in Hi as (B1 & B2 & ->).
  assert (T : tr_of id (e_trace s) = (tr_of id A ++ o :: tr_of id B1) ++ OFree id :: tr_of id B2).
  { rewrite E, (tr_of_split id A o _ Ha), (tr_of_split id B1 (OFree id) B2 (N.eqb_refl id)), <- app_assoc. reflexivity. }
  destruct (life_free_last _ _ _ _ _ _ _ L _ _ T) as (_ & [X|X]); [destruct (tr_of id A); discriminate|].
  destruct (tr_of id A) as [|a A']; [injection X as ->; exact (Hr eq_refl)|]. destruct A'; discriminate.
Qed.

Lemma nowait_last c D cl id m tr p : no_wait c = true -> life c D cl id m tr p -> forall X Y, tr = X ++ ORet id true :: Y -> X = [] /\ ~ In (ORet id true) Y.
Proof.
  intros Hz (tr0 & p0 & B & L).
  assert (NF : forall b, ~ In (ORet id b) (fail_cb id m)) by (intros b; unfold fail_cb; destruct (_ && _); cbn; intuition discriminate).
  assert (NT : forall b, ~ In (ORet id b) (tx_start id m)) by (intros b; unfold tx_start; destruct (mi_resp m); cbn; intuition discriminate).
  assert (Z : c_n1 c = 0 \/ c_t1 c = 0) by (unfold no_wait in Hz; apply orb_true_iff in Hz as [Hz|Hz]; apply N.eqb_eq in Hz; auto).
  induction L as [|tr1 p1 tr2 p2 L IH S].
  - intros X Y E. revert X Y E. inversion B; subst; intros X Y E; try tauto.
    + exfalso. match type of E with ?l = _ => assert (In (ORet id true) l) as Hi by (rewrite E; apply in_elt) end. cbn [In] in Hi. rewrite in_app_iff in Hi. cbn [In] in Hi. intuition (try discriminate); eauto.
    + assert (K : ~ In (ORet id true) (fail_cb id m ++ OSend (Some id) t (mi_to m) (mi_bs m) :: tx_start id m)) by (rewrite in_app_iff; cbn [In]; intuition (try discriminate); eauto).
      destruct X as [|a X]; cbn [app] in E; [injection E as E2; split; [reflexivity|rewrite <- E2; exact K]|]. injection E as E1 E2. destruct K. rewrite E2. apply in_elt.
  - exfalso. clear IH. assert (P : p1 = PGone); [|inversion S; subst; congruence].
    clear S. induction L as [|? p3 ? ? L IH S]; [inversion B; subst; tauto|]. rewrite IH in S. inversion S; subst; congruence.
Qed.
Lemma ret_last c s A o B id : no_wait c = true -> reachable c s -> e_trace s = A ++ o :: B -> about id o = true -> ~ In (ORet id true) B.
Proof.
  intros Hz R E Ha Hi. destruct (about_life c s R id o) as (m & p & K); [rewrite E; apply in_elt|exact Ha|].
  pose proof (kn_life _ _ _ _ _ _ _ K) as L. apply in_split in Hi as (B1 & B2 & ->).
  assert (T : tr_of id (e_trace s) = (tr_of id A ++ o :: tr_of id B1) ++ ORet id true :: tr_of id B2).
  { rewrite E, (tr_of_split id A o _ Ha), (tr_of_split id B1 (ORet id true) B2 (N.eqb_refl id)), <- app_assoc. reflexivity. }
  destruct (nowait_last _ _ _ _ _ _ _ Hz L _ _ T) as (X & _). destruct (tr_of id A); discriminate.
Qed.

(* ---------------------------------------------------------------- logs *)
Lemma x_run_snoc c l v : forall x, x_run c x (l ++ [v]) = x_bind (x_run c x l) (fun y => x_step c y v).
Proof.
  induction l as [|w l IH]; intros x; cbn [app x_run x_bind].
  - destruct (x_step c x v); reflexivity.
  - destruct (x_step c x w); cbn [x_bind]; [apply IH|reflexivity|reflexivity].
Qed.
Lemma x_obs_app a b : x_obs (a ++ b) = x_obs a ++ x_obs b.
Proof. induction a as [|v a IH]; [reflexivity|]. destruct v; cbn [app x_obs]; rewrite ?IH; reflexivity. Qed.
Lemma x_obs_split s l l1 o l2 : x_obs l = rev (e_trace s) -> l = l1 ++ XEp o :: l2 -> e_trace s = rev (x_obs l2) ++ o :: rev (x_obs l1).
Proof.
  intros E ->. rewrite <- (rev_involutive (e_trace s)), <- E, x_obs_app. cbn [x_obs]. rewrite rev_app_distr. cbn [rev]. rewrite <- app_assoc. reflexivity.
Qed.

(* ---------------------------------------------------------------- counting *)
Definition holds1 (o tok : N) (y : xmsg) : Z := (ctx_holds o tok (xm_peer y) + ctx_holds o tok (xm_sess y))%Z.
Lemma ctx_holds_nonneg o tok k : (0 <= ctx_holds o tok k)%Z.
Proof. unfold ctx_holds. destruct (mc_uc k) as [[o' t']|]; [destruct (_ && _)|]; lia. Qed.
Lemma holds1_nonneg o tok y : (0 <= holds1 o tok y)%Z.
Proof. unfold holds1. pose proof (ctx_holds_nonneg o tok (xm_peer y)). pose proof (ctx_holds_nonneg o tok (xm_sess y)). lia. Qed.
Lemma holds_cons o tok y M : holds o tok (y :: M) = (holds1 o tok y + holds o tok M)%Z.
Proof. reflexivity. Qed.
Lemma holds_nonneg o tok M : (0 <= holds o tok M)%Z.
Proof. induction M as [|y M IH]; [cbn; lia|]. rewrite holds_cons. pose proof (holds1_nonneg o tok y). lia. Qed.
Lemma holds_in o tok y M : In y M -> (holds1 o tok y <= holds o tok M)%Z.
Proof. induction M as [|z M IH]; intros H; [destruct H|]. rewrite holds_cons. destruct H as [->|H]; [pose proof (holds_nonneg o tok M); lia|]. pose proof (holds1_nonneg o tok z). specialize (IH H). lia. Qed.
Lemma upd_none' (y : xmsg) M : ~ In (xm_nr y) (map xm_nr M) -> map (fun z => if xm_nr z =? xm_nr y then y else z) M = M.
Proof. induction M as [|x M IH]; [reflexivity|]. cbn [map In]. intros N. rewrite IH by tauto. destruct (N.eqb_spec (xm_nr x) (xm_nr y)); [tauto|reflexivity]. Qed.
Lemma holds_upd o tok y x M : NoDup (map xm_nr M) -> In x M -> xm_nr x = xm_nr y ->
  holds o tok (map (fun z => if xm_nr z =? xm_nr y then y else z) M) = (holds o tok M - holds1 o tok x + holds1 o tok y)%Z.
Proof.
  induction M as [|w M IH]; intros ND Hx E; [destruct Hx|]. cbn [map] in *. inversion ND as [|? ? N1 N2]; subst. rewrite !holds_cons. destruct Hx as [->|Hx].
  - rewrite E, N.eqb_refl, upd_none' by (rewrite <- E; exact N1). lia.
  - destruct (N.eqb_spec (xm_nr w) (xm_nr y)) as [Ew|_]; [destruct N1; rewrite Ew, <- E; apply in_map; exact Hx|]. rewrite (IH N2 Hx E). lia.
Qed.
Lemma upd_nrs (y : xmsg) M : map xm_nr (map (fun z => if xm_nr z =? xm_nr y then y else z) M) = map xm_nr M.
Proof. rewrite map_map. apply map_ext. intros z. destruct (N.eqb_spec (xm_nr z) (xm_nr y)); congruence. Qed.
Lemma upd_in (y z : xmsg) M : In z (map (fun z => if xm_nr z =? xm_nr y then y else z) M) -> z = y \/ In z M /\ xm_nr z <> xm_nr y.
Proof. rewrite in_map_iff. intros (w & <- & H). destruct (N.eqb_spec (xm_nr w) (xm_nr y)); auto. Qed.
Lemma upd_in_other (y z : xmsg) M : In z M -> xm_nr z <> xm_nr y -> In z (map (fun z => if xm_nr z =? xm_nr y then y else z) M).
Proof. intros H N. apply in_map_iff. exists z. split; [|exact H]. destruct (N.eqb_spec (xm_nr z) (xm_nr y)); congruence. Qed.
Lemma upd_in_self (y z : xmsg) M : In z M -> xm_nr z = xm_nr y -> In y (map (fun z => if xm_nr z =? xm_nr y then y else z) M).
Proof. intros H N. apply in_map_iff. exists z. split; [|exact H]. rewrite N, N.eqb_refl. reflexivity. Qed.
Lemma nr_inj (y z : xmsg) M : NoDup (map xm_nr M) -> In y M -> In z M -> xm_nr y = xm_nr z -> y = z.
Proof.
  induction M as [|w M IH]; intros ND Hy Hz E; [destruct Hy|]. cbn in ND. inversion ND as [|? ? N1 N2]; subst.
  destruct Hy as [->|Hy], Hz as [->|Hz]; [reflexivity| | |exact (IH N2 Hy Hz E)]; destruct N1; [rewrite E|rewrite <- E]; apply in_map; assumption.
Qed.

(* ---------------------------------------------------------------- invariant *)
(* the use count of a context belongs to the same object as its FSM instance *)
Definition same_obj (k : mctx) : Prop := forall o tok, mc_uc k = Some (o, tok) -> mc_fi k = Some o.
(* the endpoint does not have message [id] any more *)
Definition gone (c : ep_cfg) (l : list xentry) (id : N) : Prop := In (OFree id) (x_obs l) \/ no_wait c = true /\ In (ORet id true) (x_obs l).
Record xinv (c : ep_cfg) (l : list xentry) (x : xst) : Prop := mkXinv {
  xi_nodup : NoDup (map xm_nr (x_msgs x));
  xi_same : forall y, In y (x_msgs x) -> same_obj (xm_peer y) /\ same_obj (xm_sess y);
  xi_live : forall y o, In y (x_msgs x) -> refers y o -> is_dead o x = false;
  xi_cnt : forall o tok, (holds o tok (x_msgs x) <= x_cnt x o tok)%Z;
  xi_ep : forall id to h ies cb, In (OTx id to h ies cb) (x_obs l) -> ~ gone c l id -> exists y, In y (x_msgs x) /\ x_at id y = true;
}.
Lemma inv0 c : xinv c [] xst0.
Proof. constructor; cbn; try (intros; contradiction); [constructor|]. intros. lia. Qed.

Lemma refers_fi y o : mc_fi (xm_peer y) = Some o \/ mc_fi (xm_sess y) = Some o -> refers y o.
Proof. unfold refers, ctx_refers. tauto. Qed.
Lemma log_msg_ok c l x y : xinv c l x -> In y (x_msgs x) -> log_msg y x = POk tt.
Proof.
  intros V H. unfold log_msg, touch. destruct (mc_fi (xm_sess y)) as [o|] eqn:E; [rewrite (xi_live _ _ _ V y o H (refers_fi y o (or_intror E))); reflexivity|].
  destruct (mc_fi (xm_peer y)) as [o|] eqn:E1; [|reflexivity]. rewrite (xi_live _ _ _ V y o H (refers_fi y o (or_introl E1))). reflexivity.
Qed.
Lemma find_in (f : xmsg -> bool) M y : find f M = Some y -> In y M /\ f y = true.
Proof. apply find_some. Qed.
Lemma x_app_in m x y : x_app m x = Some y -> In y (x_msgs x) /\ xm_nr y = m /\ xm_own y = XoApp.
Proof.
  unfold x_app, x_find. destruct (find _ (x_msgs x)) as [z|] eqn:E; [|discriminate]. apply find_in in E as [E1 E2]. apply N.eqb_eq in E2.
  destruct (xm_own z) eqn:Eo; try discriminate. intros [= <-]. auto.
Qed.
Lemma at_own id y w : x_at id (own w y) = match w with XoTx i | XoQueue i => i =? id | _ => false end.
Proof. reflexivity. Qed.

(* releasing the use counts of a message *)
Lemma put_ok x k : (forall o tok, mc_uc k = Some (o, tok) -> is_dead o x = false) -> (forall o tok, (ctx_holds o tok k <= x_cnt x o tok)%Z) ->
  exists x', put k x = POk x' /\ x_dead x' = x_dead x /\ x_msgs x' = x_msgs x /\ forall o tok, x_cnt x' o tok = (x_cnt x o tok - ctx_holds o tok k)%Z.
Proof.
  intros Hd Hc. unfold put, ctx_holds in *. destruct (mc_uc k) as [[o tok]|].
  - unfold use, touch. rewrite (Hd o tok eq_refl). cbn [x_bind]. specialize (Hc o tok) as Hot. rewrite !N.eqb_refl in Hot. cbn [andb] in Hot.
    destruct (x_cnt x o tok + -1 <? 0)%Z eqn:E; [apply Z.ltb_lt in E; lia|]. eexists. split; [reflexivity|]. cbn. split; [reflexivity|]. split; [reflexivity|].
    intros o' t'. rewrite (N.eqb_sym o o'), (N.eqb_sym tok t'). destruct (N.eqb_spec o' o) as [->|], (N.eqb_spec t' tok) as [->|]; cbn [andb]; lia.
  - exists x. split; [reflexivity|]. do 2 (split; [reflexivity|]). intros. lia.
Qed.
Lemma destructor_ok c l x y : xinv c l x -> In y (x_msgs x) ->
  exists x', destructor y x = POk x' /\ x_dead x' = x_dead x /\ x_msgs x' = x_msgs (x_upd (mkXmsg (xm_nr y) (xm_rx y) no_ctx no_ctx XoFreed) x)
    /\ forall o tok, x_cnt x' o tok = (x_cnt x o tok - holds1 o tok y)%Z.
Proof.
  intros V H. unfold destructor. rewrite (log_msg_ok c l x y V H). cbn [x_bind]. destruct (xi_same _ _ _ V y H) as [S1 S2].
  pose proof (fun o tok => Z.le_trans _ _ _ (holds_in o tok y _ H) (xi_cnt _ _ _ V o tok)) as Hc. unfold holds1 in Hc.
  destruct (put_ok x (xm_sess y)) as (x1 & -> & A1 & A2 & A3).
  { intros o tok E. apply (xi_live _ _ _ V y o H). right. right. exists tok. exact E. }
  { intros o tok. specialize (Hc o tok). pose proof (ctx_holds_nonneg o tok (xm_peer y)). lia. }
  cbn [x_bind]. destruct (put_ok x1 (xm_peer y)) as (x2 & -> & B1 & B2 & B3).
  { intros o tok E. unfold is_dead. rewrite A1. apply (xi_live _ _ _ V y o H). left. right. exists tok. exact E. }
  { intros o tok. rewrite A3. specialize (Hc o tok). lia. }
  cbn [x_bind]. eexists. split; [reflexivity|]. cbn [x_upd x_dead x_msgs x_cnt]. rewrite B1, B2, A1, A2. do 2 (split; [reflexivity|]). intros o tok. rewrite B3, A3. unfold holds1. lia.
Qed.

Definition neutral (v : xentry) : Prop := match v with XEp (OTx _ _ _ _ _) => False | _ => True end.
Lemma obs_neutral l v id to h ies cb : neutral v -> In (OTx id to h ies cb) (x_obs (l ++ [v])) -> In (OTx id to h ies cb) (x_obs l).
Proof. intros Hn. rewrite x_obs_app, in_app_iff. intros [H|H]; [exact H|]. exfalso. destruct v as [| | | | | | | | |o]; try (cbn in H; exact H). cbn [x_obs In] in H. destruct H as [-> |[]]. exact Hn. Qed.
Lemma obs_nofree c l v id : ~ gone c (l ++ [v]) id -> ~ gone c l id.
Proof. unfold gone. rewrite x_obs_app, !in_app_iff. tauto. Qed.

(* one message is replaced *)
Lemma xinv_upd c l v x y z cnt : xinv c l x -> In y (x_msgs x) -> xm_nr z = xm_nr y -> same_obj (xm_peer z) -> same_obj (xm_sess z) ->
  (forall o, refers z o -> is_dead o x = false) ->
  (forall o tok, (x_cnt x o tok - holds1 o tok y + holds1 o tok z <= cnt o tok)%Z) ->
  (forall id to h ies cb, In (OTx id to h ies cb) (x_obs (l ++ [v])) -> ~ gone c (l ++ [v]) id ->
     In (OTx id to h ies cb) (x_obs l) /\ (x_at id y = true -> x_at id z = true) \/ x_at id z = true) ->
  xinv c (l ++ [v]) (mkXst (x_dead x) cnt (x_msgs (x_upd z x))).
Proof.
  intros V Hy En S1 S2 Hl Hc He. constructor; cbn [x_dead x_cnt x_msgs x_upd].
  - rewrite upd_nrs. exact (xi_nodup _ _ _ V).
  - intros w Hw. apply upd_in in Hw as [->|[Hw _]]; [split; assumption|exact (xi_same _ _ _ V w Hw)].
  - intros w o Hw Hr. apply upd_in in Hw as [->|[Hw _]]; [exact (Hl o Hr)|exact (xi_live _ _ _ V w o Hw Hr)].
  - intros o tok. rewrite (holds_upd o tok z y _ (xi_nodup _ _ _ V) Hy) by congruence. specialize (Hc o tok). pose proof (xi_cnt _ _ _ V o tok). lia.
  - intros id to h ies cb H1 H2. destruct (He id to h ies cb H1 H2) as [[H3 H4]|H4].
    + destruct (xi_ep _ _ _ V id to h ies cb H3 (obs_nofree _ _ _ _ H2)) as (w & Hw & Ha). destruct (N.eq_dec (xm_nr w) (xm_nr z)) as [E|N].
      * assert (w = y) as -> by (apply (nr_inj w y (x_msgs x) (xi_nodup _ _ _ V) Hw Hy); congruence). exists z. split; [exact (upd_in_self z y _ Hy (eq_sym En))|exact (H4 Ha)].
      * exists w. split; [exact (upd_in_other z w _ Hw N)|exact Ha].
    + exists z. split; [exact (upd_in_self z y _ Hy (eq_sym En))|exact H4].
Qed.
Lemma xinv_same c l v x : xinv c l x -> neutral v -> xinv c (l ++ [v]) x.
Proof.
  intros [A B C D E] Hn. constructor; try assumption. intros id to h ies cb H1 H2. exact (E id to h ies cb (obs_neutral _ _ _ _ _ _ _ Hn H1) (obs_nofree _ _ _ _ H2)).
Qed.
Lemma same_no : same_obj no_ctx. Proof. intros o tok [=]. Qed.
Lemma same_inv o k : same_obj k -> same_obj (inv_ctx o k).
Proof. intros H. unfold inv_ctx. destruct (mc_fi k) as [i|]; [destruct (i =? o); [apply same_no|exact H]|exact H]. Qed.
Lemma refers_inv o k o' : same_obj k -> ctx_refers (inv_ctx o k) o' -> ctx_refers k o' /\ o' <> o.
Proof.
  intros S. unfold inv_ctx. destruct (mc_fi k) as [i|] eqn:E.
  - destruct (N.eqb_spec i o) as [->|N].
    + intros [H|(tok & H)]; discriminate.
    + intros H. split; [exact H|]. destruct H as [H|(tok & H)]; [congruence|]. apply S in H. congruence.
  - intros H. split; [exact H|]. destruct H as [H|(tok & H)]; [congruence|]. apply S in H. congruence.
Qed.
Lemma holds_inv o k o' tok : (ctx_holds o' tok (inv_ctx o k) <= ctx_holds o' tok k)%Z.
Proof. unfold inv_ctx. destruct (mc_fi k) as [i|]; [destruct (i =? o)|]; [|lia|lia]. apply ctx_holds_nonneg. Qed.
Lemma invalidate_refers o y o' : same_obj (xm_peer y) -> same_obj (xm_sess y) -> refers (invalidate o y) o' -> refers y o' /\ o' <> o.
Proof. intros S1 S2 [H|H]; cbn in H; apply refers_inv in H; try assumption; unfold refers; tauto. Qed.
Definition taken (o : N) (tok : option N) (o' t' : N) : Z := match tok with Some t => if (o =? o') && (t =? t') then 1%Z else 0%Z | None => 0%Z end.
Lemma attach_ok c l v x y (sess : bool) o tok : xinv c l x -> In y (x_msgs x) -> neutral v -> is_dead o x = false -> mc_fi (if sess then xm_sess y else xm_peer y) = None ->
  exists x', attach sess o tok y x = POk x' /\ xinv c (l ++ [v]) x' /\ x_dead x' = x_dead x
    /\ x_msgs x' = x_msgs (x_upd (set_ctx sess (mkMctx (Some o) (match tok with Some t => Some (o, t) | None => None end)) y) x)
    /\ forall o' t', x_cnt x' o' t' = (x_cnt x o' t' + taken o tok o' t')%Z.
Proof.
  intros V Hy Hn Hd Hf. destruct (xi_same _ _ _ V y Hy) as [S1 S2]. unfold attach. set (k := mkMctx _ _). set (z := set_ctx sess k y).
  assert (Eu : mc_uc (if sess then xm_sess y else xm_peer y) = None).
  { destruct (mc_uc (if sess then xm_sess y else xm_peer y)) as [[o1 t1]|] eqn:E; [|reflexivity]. exfalso. destruct sess; [rewrite (S2 _ _ E) in Hf|rewrite (S1 _ _ E) in Hf]; discriminate. }
  assert (Sk : same_obj k) by (intros o1 t1; cbn; destruct tok; [intros [= <- _]; reflexivity|discriminate]).
  assert (Hz : forall o' t', holds1 o' t' z = (holds1 o' t' y + taken o tok o' t')%Z).
  { intros o' t'. unfold z, holds1, set_ctx. assert (K : ctx_holds o' t' k = taken o tok o' t') by (unfold ctx_holds, k, taken; cbn [mc_uc]; destruct tok; reflexivity).
    assert (K0 : ctx_holds o' t' (if sess then xm_sess y else xm_peer y) = 0%Z) by (unfold ctx_holds; rewrite Eu; reflexivity).
    destruct sess; cbn [xm_peer xm_sess]; rewrite K, K0; lia. }
  assert (I : forall cnt, (forall o' t', (x_cnt x o' t' + taken o tok o' t' <= cnt o' t')%Z) ->
     xinv c (l ++ [v]) (mkXst (x_dead x) cnt (x_msgs (x_upd z x)))).
  { intros cnt Hc. apply (xinv_upd c l v x y z cnt V Hy).
    - unfold z, set_ctx. destruct sess; reflexivity.
    - unfold z, set_ctx. destruct sess; [exact S1|exact Sk].
    - unfold z, set_ctx. destruct sess; [exact Sk|exact S2].
    - intros o' Hr. assert (X : refers y o' \/ o' = o).
      { unfold z, set_ctx, refers, ctx_refers in *. destruct sess; cbn [xm_peer xm_sess k mc_fi mc_uc] in Hr.
        - destruct Hr as [Hr|[[= ->]|(t & Hr)]]; [tauto|tauto|]. destruct tok; [injection Hr as -> _; tauto|discriminate].
        - destruct Hr as [[[= ->]|(t & Hr)]|Hr]; [tauto| |tauto]. destruct tok; [injection Hr as -> _; tauto|discriminate]. }
      destruct X as [X| ->]; [exact (xi_live _ _ _ V y o' Hy X)|exact Hd].
    - intros o' t'. rewrite Hz. specialize (Hc o' t'). lia.
    - intros id to h ies cb H1 _. left. split; [exact (obs_neutral _ _ _ _ _ _ _ Hn H1)|]. unfold z, set_ctx. destruct sess; auto. }
  destruct tok as [t|].
  - unfold use, touch. change (is_dead o (x_upd z x)) with (is_dead o x). rewrite Hd. cbn [x_bind]. change (x_cnt (x_upd z x)) with (x_cnt x).
    pose proof (Z.le_trans _ _ _ (holds_nonneg o t (x_msgs x)) (xi_cnt _ _ _ V o t)).
    destruct (x_cnt x o t + 1 <? 0)%Z eqn:E; [apply Z.ltb_lt in E; lia|]. eexists. split; [reflexivity|].
    assert (C : forall o' t', (if (o' =? o) && (t' =? t) then (x_cnt x o t + 1)%Z else x_cnt x o' t') = (x_cnt x o' t' + taken o (Some t) o' t')%Z).
    { intros o' t'. unfold taken. rewrite (N.eqb_sym o o'), (N.eqb_sym t t'). destruct (N.eqb_spec o' o) as [->|], (N.eqb_spec t' t) as [->|]; cbn [andb]; lia. }
    split; [|split; [reflexivity|split; [reflexivity|exact C]]]. apply (I (fun o' t' => _)). intros o' t'. cbv beta. rewrite C. lia.
  - eexists. split; [reflexivity|]. split; [|split; [reflexivity|split; [reflexivity|intros; unfold taken; cbn [x_cnt x_upd]; lia]]]. apply (I (x_cnt x)). intros. unfold taken. lia.
Qed.

Section Ep.
Variables (c : ep_cfg) (s : ep) (l : list xentry).
Hypothesis (R : reachable c s) (EL : x_obs l = rev (e_trace s)).

Lemma ep_message l1 o l2 x id : l = l1 ++ XEp o :: l2 -> about id o = true -> is_tx id o = false -> o <> ORet id false -> xinv c l1 x ->
  exists y, find (x_at id) (x_msgs x) = Some y.
Proof.
  intros E Ha Ht Hr V. pose proof (x_obs_split s l l1 o l2 EL E) as T.
  destruct (tx_first c s R _ _ _ id T Ha Ht) as (to & h & ies & cb & H1). rewrite <- in_rev in H1.
  assert (H2 : ~ gone c l1 id).
  { intros [H|[Z H]].
    - apply (free_last c s _ _ _ id R T Ha Hr). rewrite <- in_rev. exact H.
    - apply (ret_last c s _ _ _ id Z R T Ha). rewrite <- in_rev. exact H. }
  destruct (xi_ep _ _ _ V id to h ies cb H1 H2) as (y & Hy & Hat). destruct (find (x_at id) (x_msgs x)) as [z|] eqn:Ef; [exists z; reflexivity|].
  rewrite (find_none _ _ Ef y Hy) in Hat. discriminate.
Qed.
Definition good (l1 : list xentry) (r : pres xst) : Prop := match r with POk x' => xinv c l1 x' | PNo => True | PUB _ => False end.

Lemma free_step l1 v x y : xinv c l1 x -> In y (x_msgs x) -> neutral v -> (forall id, x_at id y = true -> gone c (l1 ++ [v]) id) -> good (l1 ++ [v]) (destructor y x).
Proof.
  intros V Hy Hn Hf. destruct (destructor_ok c l1 x y V Hy) as (x' & -> & A & B & C). cbn [good]. destruct x' as [d n M]. cbn [x_dead x_msgs x_cnt] in *. subst d M.
  apply (xinv_upd c l1 v x y _ n V Hy); [reflexivity|apply same_no|apply same_no| | |].
  - intros o [[H|(t & H)]|[H|(t & H)]]; discriminate.
  - intros o tok. rewrite C. unfold holds1 at 2. cbn. lia.
  - intros id to h ies cb H1 H2. left. split; [exact (obs_neutral _ _ _ _ _ _ _ Hn H1)|]. intros Ha. destruct (H2 (Hf id Ha)).
Qed.
Lemma own_step l1 v x y w : xinv c l1 x -> In y (x_msgs x) ->
  (forall id to h ies cb, In (OTx id to h ies cb) (x_obs (l1 ++ [v])) -> ~ gone c (l1 ++ [v]) id ->
     In (OTx id to h ies cb) (x_obs l1) /\ (x_at id y = true -> x_at id (own w y) = true) \/ x_at id (own w y) = true) ->
  xinv c (l1 ++ [v]) (x_upd (own w y) x).
Proof.
  intros V Hy H. destruct (xi_same _ _ _ V y Hy) as [S1 S2]. apply (xinv_upd c l1 v x y (own w y) (x_cnt x) V Hy); [reflexivity|exact S1|exact S2| | |exact H].
  - intros o Hr. exact (xi_live _ _ _ V y o Hy Hr).
  - intros o tok. change (holds1 o tok (own w y)) with (holds1 o tok y). lia.
Qed.
Lemma app_not_at id y : xm_own y = XoApp -> x_at id y = false.
Proof. unfold x_at. intros ->. reflexivity. Qed.

Lemma step_good l1 v l2 x : l = l1 ++ v :: l2 -> xinv c l1 x -> (forall o, v = XDestroy o -> forall y, In y (x_msgs x) -> ~ refers y o) -> good (l1 ++ [v]) (x_step c x v).
Proof.
  intros E V Hd. destruct v as [m rx|m o|sess m o tok|m|m o|o|o|m|m|o]; cbn [x_step].
  - destruct (x_find m x) eqn:Ef; [exact Logic.I|]. pose proof (xinv_same c l1 (XAlloc m rx) x V Logic.I) as [A B C D F]. constructor; cbn [x_dead x_cnt x_msgs].
    + cbn [map]. constructor; [|exact A]. intros Hi. apply in_map_iff in Hi as (z & Ez & Hz). unfold x_find in Ef. apply (find_none _ _ Ef) in Hz. rewrite Ez in Hz. cbn in Hz. rewrite N.eqb_refl in Hz. discriminate.
    + intros y [<-|Hy]; [split; apply same_no|exact (B y Hy)].
    + intros y o [<-|Hy] Hr; [destruct Hr as [[H|(t & H)]|[H|(t & H)]]; discriminate|exact (C y o Hy Hr)].
    + intros o tok. rewrite holds_cons. change (holds1 o tok _) with 0%Z. exact (D o tok).
    + intros id to h ies cb H1 H2. destruct (F id to h ies cb H1 H2) as (y & Hy & Ha). exists y. split; [right; exact Hy|exact Ha].
  - destruct (x_app m x) as [y|] eqn:Ea; [|exact Logic.I]. apply x_app_in in Ea as (Hy & _ & _). destruct (is_dead o x) eqn:Ed; [exact Logic.I|].
    destruct (mc_fi (xm_peer y)) eqn:Ef; [solve [apply (xinv_same c l1 _ x V); exact Logic.I]|]. destruct (attach_ok c l1 (XSetPeer m o) x y false o (Some (peer_token (xm_rx y))) V Hy Logic.I Ed Ef) as (x' & -> & H & _). exact H.
  - destruct (x_app m x) as [y|] eqn:Ea; [|exact Logic.I]. apply x_app_in in Ea as (Hy & _ & _). destruct (is_dead o x) eqn:Ed; [exact Logic.I|].
    destruct (mc_fi (if sess then xm_sess y else xm_peer y)) eqn:Ef; [exact Logic.I|]. destruct (attach_ok c l1 (XSet sess m o tok) x y sess o tok V Hy Logic.I Ed Ef) as (x' & -> & H & _). exact H.
  - destruct (x_app m x) as [y|] eqn:Ea; [|exact Logic.I]. apply x_app_in in Ea as (Hy & _ & _). rewrite (log_msg_ok c l1 x y V Hy). solve [apply (xinv_same c l1 _ x V); exact Logic.I].
  - unfold x_find. destruct (find _ (x_msgs x)) as [y|] eqn:Ea; [|exact Logic.I]. apply find_in in Ea as (Hy & _). destruct (xi_same _ _ _ V y Hy) as [S1 S2].
    enough (G : xinv c (l1 ++ [XInvMsg m o]) (x_upd (invalidate o y) x)) by (destruct (xm_own y); (exact G || exact Logic.I)).
    apply (xinv_upd c l1 (XInvMsg m o) x y (invalidate o y) (x_cnt x) V Hy); [reflexivity|apply same_inv, S1|apply same_inv, S2| | |].
    + intros o' Hr. apply invalidate_refers in Hr as [Hr _]; [|exact S1|exact S2]. exact (xi_live _ _ _ V y o' Hy Hr).
    + intros o' t'. unfold holds1. cbn [invalidate xm_peer xm_sess]. pose proof (holds_inv o (xm_peer y) o' t'). pose proof (holds_inv o (xm_sess y) o' t'). lia.
    + intros id to h ies cb H1 _. left. split; [refine (obs_neutral _ _ _ _ _ _ _ _ H1); exact Logic.I|]. exact (fun H => H).
  - pose proof (xinv_same c l1 (XInvEp o) x V Logic.I) as [A B C D F]. set (f := fun y => match xm_own y with XoQueue _ => invalidate o y | _ => y end).
    assert (G : forall y, xm_nr (f y) = xm_nr y /\ xm_own (f y) = xm_own y /\ (f y = y \/ f y = invalidate o y)) by (intros y; unfold f; destruct (xm_own y) eqn:Eo; auto).
    constructor; cbn [x_dead x_cnt x_msgs].
    + rewrite map_map. rewrite (map_ext (fun y => xm_nr (f y)) xm_nr) by (intros y; apply G). exact A.
    + intros z Hz. apply in_map_iff in Hz as (y & <- & Hy). destruct (B y Hy) as [S1 S2]. fold (f y). destruct (G y) as (_ & _ & [-> | ->]); [split; assumption|split; apply same_inv; assumption].
    + intros z o' Hz Hr. apply in_map_iff in Hz as (y & <- & Hy). fold (f y) in Hr. apply (C y o' Hy). destruct (B y Hy) as [S1 S2]. destruct (G y) as (_ & _ & [X | X]); rewrite X in Hr; [exact Hr|].
      exact (proj1 (invalidate_refers o y o' S1 S2 Hr)).
    + intros o' t'. refine (Z.le_trans _ _ _ _ (D o' t')). clear. induction (x_msgs x) as [|y M IH]; [cbn; lia|]. cbn [map]. rewrite !holds_cons.
      assert (X : (holds1 o' t' (match xm_own y with XoQueue _ => invalidate o y | _ => y end) <= holds1 o' t' y)%Z).
      { unfold holds1. pose proof (holds_inv o (xm_peer y) o' t'). pose proof (holds_inv o (xm_sess y) o' t'). destruct (xm_own y); cbn [invalidate xm_peer xm_sess]; lia. }
      fold (f y) in X; lia.
    + intros id to h ies cb H1 H2. destruct (F id to h ies cb H1 H2) as (y & Hy & Ha). exists (f y). split; [apply in_map_iff; exists y; split; [reflexivity|exact Hy]|].
      destruct (G y) as (_ & Eo & _). unfold x_at in *. rewrite Eo. exact Ha.
  - destruct (is_dead o x) eqn:Ed; [exact Logic.I|]. pose proof (xinv_same c l1 (XDestroy o) x V Logic.I) as [A B C D F]. constructor; cbn [x_dead x_cnt x_msgs]; try assumption.
    intros y o' Hy Hr. unfold is_dead. cbn [x_dead existsb]. destruct (N.eqb_spec o' o) as [->|N]; [destruct (Hd o eq_refl y Hy Hr)|]. exact (C y o' Hy Hr).
  - destruct (existsb x_given (x_msgs x)); [exact Logic.I|]. destruct (x_app m x) as [y|] eqn:Ea; [|exact Logic.I]. apply x_app_in in Ea as (Hy & _ & Eo).
    apply own_step; [exact V|exact Hy|]. intros id to h ies cb H1 _. left. split; [refine (obs_neutral _ _ _ _ _ _ _ _ H1); exact Logic.I|]. rewrite (app_not_at id y Eo). discriminate.
  - destruct (x_app m x) as [y|] eqn:Ea; [|exact Logic.I]. apply x_app_in in Ea as (Hy & _ & Eo). apply free_step; [exact V|exact Hy|exact Logic.I|]. intros id. rewrite (app_not_at id y Eo). discriminate.
  - destruct o as [id to h ies cb|sid n|[id|] t to bs|[id|]|id r|from h ies rq|id|id [|]|id t];
      try solve [apply (xinv_same c l1 _ x V); exact Logic.I].
    + destruct (find x_given (x_msgs x)) as [y|] eqn:Ef; [|exact Logic.I]. apply find_in in Ef as [Hy Hg]. rewrite (log_msg_ok c l1 x y V Hy). cbn [x_bind good].
      apply own_step; [exact V|exact Hy|]. intros id' to' h' ies' cb' H1 _. rewrite x_obs_app, in_app_iff in H1. cbn [x_obs In] in H1. destruct H1 as [H1|[H1|[]]].
      * left. split; [exact H1|]. unfold x_given in Hg. unfold x_at. destruct (xm_own y); discriminate.
      * right. injection H1 as -> _ _ _ _. rewrite at_own. apply N.eqb_refl.
    + destruct (ep_message l1 _ l2 x id E (N.eqb_refl id) eq_refl ltac:(discriminate) V) as (y & Ef). rewrite Ef. apply find_in in Ef as [Hy Hat]. rewrite (log_msg_ok c l1 x y V Hy). cbn [x_bind good].
      destruct (no_wait c); [solve [apply (xinv_same c l1 _ x V); exact Logic.I]|]. apply own_step; [exact V|exact Hy|]. intros id' to' h' ies' cb' H1 _. left. split; [exact (obs_neutral _ (XEp (OSend (Some id) t to bs)) _ _ _ _ _ Logic.I H1)|].
      rewrite at_own. unfold x_at in *. destruct (xm_own y); try discriminate; apply N.eqb_eq in Hat; subst; auto.
    + destruct (ep_message l1 _ l2 x id E (N.eqb_refl id) eq_refl ltac:(discriminate) V) as (y & Ef). rewrite Ef. apply find_in in Ef as [Hy Hat]. rewrite (log_msg_ok c l1 x y V Hy). solve [apply (xinv_same c l1 _ x V); exact Logic.I].
    + destruct (ep_message l1 _ l2 x id E (N.eqb_refl id) eq_refl ltac:(discriminate) V) as (y & Ef). rewrite Ef. apply find_in in Ef as [Hy Hat]. apply free_step; [exact V|exact Hy|exact Logic.I|].
      intros id' Ha. assert (id' = id) as -> by (unfold x_at in *; destruct (xm_own y); try discriminate; apply N.eqb_eq in Ha, Hat; congruence). left. rewrite x_obs_app. apply in_elt.
    + destruct (no_wait c) eqn:Z; [|solve [apply (xinv_same c l1 _ x V); exact Logic.I]].
      destruct (ep_message l1 _ l2 x id E (N.eqb_refl id) eq_refl ltac:(discriminate) V) as (y & Ef). rewrite Ef. apply find_in in Ef as [Hy Hat].
      apply own_step; [exact V|exact Hy|]. intros id' to' h' ies' cb' H1 H2. left. split; [refine (obs_neutral _ (XEp (ORet id true)) _ _ _ _ _ _ H1); exact Logic.I|].
      intros Ha. destruct H2. right. split; [exact Z|]. assert (id' = id) as -> by (unfold x_at in *; destruct (xm_own y); try discriminate; apply N.eqb_eq in Ha, Hat; congruence). rewrite x_obs_app. apply in_elt.
    + destruct (ep_message l1 _ l2 x id E (N.eqb_refl id) eq_refl ltac:(discriminate) V) as (y & Ef). rewrite Ef. apply find_in in Ef as [Hy Hat]. rewrite (log_msg_ok c l1 x y V Hy). solve [apply (xinv_same c l1 _ x V); exact Logic.I].
Qed.
Lemma run_good : (forall l1 o l2 x, l = l1 ++ XDestroy o :: l2 -> x_run c xst0 l1 = POk x -> xinv c l1 x -> forall y, In y (x_msgs x) -> ~ refers y o) ->
  forall l1 l2, l = l1 ++ l2 -> good l1 (x_run c xst0 l1).
Proof.
  intros Hd l1. induction l1 as [|v l1 IH] using rev_ind; intros l2 E; [exact (inv0 c)|]. rewrite <- app_assoc in E. cbn [app] in E. specialize (IH _ E).
  rewrite x_run_snoc. destruct (x_run c xst0 l1) as [x| |u] eqn:Er; [|exact Logic.I|contradiction]. cbn [x_bind]. apply (step_good l1 v l2 x E IH).
  intros o -> y Hy. exact (Hd l1 o l2 x E Er IH y Hy).
Qed.
Lemma safe' u : (forall l1 o l2 x, l = l1 ++ XDestroy o :: l2 -> x_run c xst0 l1 = POk x -> xinv c l1 x -> forall y, In y (x_msgs x) -> ~ refers y o) -> x_run c xst0 l <> PUB u.
Proof. intros Hd E. pose proof (run_good Hd l [] (eq_sym (app_nil_r l))) as G. rewrite E in G. exact G. Qed.
Theorem ctx_safe u : at_destroy c (fun x o => forall y, In y (x_msgs x) -> ~ refers y o) l -> x_run c xst0 l <> PUB u.
Proof. intros Hd. apply safe'. intros l1 o l2 x E Er _. exact (Hd l1 o l2 x E Er). Qed.
End Ep.

(* ---------------------------------------------------------------- counts, of any log *)
Definition base (x : xst) : Prop := NoDup (map xm_nr (x_msgs x)) /\ forall y, In y (x_msgs x) -> same_obj (xm_peer y) /\ same_obj (xm_sess y).
Definition surplus (x : xst) (o tok : N) : Z := (x_cnt x o tok - holds o tok (x_msgs x))%Z.
Definition counts (v : xentry) (x x' : xst) : Prop :=
  base x' /\ forall o tok, (surplus x o tok <= surplus x' o tok)%Z /\ (is_inv o v = false -> surplus x' o tok = surplus x o tok).
Lemma counts_refl v x : base x -> counts v x x.
Proof. intros B. split; [exact B|]. intros. split; [lia|reflexivity]. Qed.
Lemma counts_upd v x x' y z : base x -> In y (x_msgs x) -> xm_nr z = xm_nr y -> same_obj (xm_peer z) -> same_obj (xm_sess z) -> x_msgs x' = x_msgs (x_upd z x) ->
  (forall o tok, (x_cnt x o tok + holds1 o tok z - holds1 o tok y <= x_cnt x' o tok)%Z
     /\ (is_inv o v = false -> x_cnt x' o tok = (x_cnt x o tok + holds1 o tok z - holds1 o tok y)%Z)) -> counts v x x'.
Proof.
  intros [B1 B2] Hy En S1 S2 Em Hc. split.
  - unfold base. rewrite Em. cbn [x_upd x_msgs]. rewrite upd_nrs. split; [exact B1|]. intros w Hw. apply upd_in in Hw as [->|[Hw _]]; [split; assumption|exact (B2 w Hw)].
  - intros o tok. unfold surplus. rewrite Em. cbn [x_upd x_msgs]. rewrite (holds_upd o tok z y _ B1 Hy) by congruence. destruct (Hc o tok) as [H1 H2]. split; [lia|]. intros H. specialize (H2 H). lia.
Qed.
Lemma use_inv o tok d x x' : use o tok d x = POk x' -> x_msgs x' = x_msgs x /\ forall o' t', x_cnt x' o' t' = (x_cnt x o' t' + (if ((o =? o') && (tok =? t'))%N then d else 0))%Z.
Proof.
  unfold use, touch. destruct (is_dead o x); [discriminate|]. cbn [x_bind]. destruct (_ <? 0)%Z; [discriminate|]. intros [= <-]. cbn. split; [reflexivity|].
  intros o' t'. rewrite (N.eqb_sym o o'), (N.eqb_sym tok t'). destruct (N.eqb_spec o' o) as [->|], (N.eqb_spec t' tok) as [->|]; cbn [andb]; lia.
Qed.
Lemma put_inv k x x' : put k x = POk x' -> x_msgs x' = x_msgs x /\ forall o t, x_cnt x' o t = (x_cnt x o t - ctx_holds o t k)%Z.
Proof.
  unfold put, ctx_holds. destruct (mc_uc k) as [[o tok]|].
  - intros H. apply use_inv in H as [A B]. split; [exact A|]. intros o' t'. rewrite B. destruct (_ && _); lia.
  - intros [= <-]. split; [reflexivity|]. intros. lia.
Qed.
Lemma x_bind_inv {A B} (r : pres A) (f : A -> pres B) b : x_bind r f = POk b -> exists a, r = POk a /\ f a = POk b.
Proof. destruct r; cbn [x_bind]; [|discriminate|discriminate]. eauto. Qed.
Lemma destructor_counts v y x x' : base x -> In y (x_msgs x) -> destructor y x = POk x' -> counts v x x'.
Proof.
  intros B Hy H. unfold destructor in H. apply x_bind_inv in H as (? & _ & H). apply x_bind_inv in H as (x1 & H1 & H). apply x_bind_inv in H as (x2 & H2 & H). injection H as <-.
  apply put_inv in H1 as [A1 A2]. apply put_inv in H2 as [C1 C2].
  apply (counts_upd v x _ y (mkXmsg (xm_nr y) (xm_rx y) no_ctx no_ctx XoFreed) B Hy); [reflexivity|apply same_no|apply same_no|cbn [x_upd x_msgs]; rewrite C1, A1; reflexivity|].
  intros o tok. cbn [x_upd x_cnt]. rewrite C2, A2. unfold holds1. cbn [xm_peer xm_sess]. change (ctx_holds o tok no_ctx) with 0%Z. split; lia.
Qed.
Lemma own_counts v y x w : base x -> In y (x_msgs x) -> counts v x (x_upd (own w y) x).
Proof.
  intros B Hy. destruct (proj2 B y Hy) as [S1 S2]. apply (counts_upd v x _ y (own w y) B Hy); [reflexivity|exact S1|exact S2|reflexivity|].
  intros o tok. change (holds1 o tok (own w y)) with (holds1 o tok y). cbn [x_upd x_cnt]. split; lia.
Qed.
Lemma attach_counts v (sess : bool) o tok y x x' : base x -> In y (x_msgs x) -> mc_fi (if sess then xm_sess y else xm_peer y) = None -> attach sess o tok y x = POk x' -> counts v x x'.
Proof.
  intros B Hy Hf H. destruct (proj2 B y Hy) as [S1 S2]. unfold attach in H. set (k := mkMctx _ _) in H. set (z := set_ctx sess k y) in H.
  assert (Eu : mc_uc (if sess then xm_sess y else xm_peer y) = None).
  { destruct (mc_uc (if sess then xm_sess y else xm_peer y)) as [[o1 t1]|] eqn:E; [|reflexivity]. exfalso. destruct sess; [rewrite (S2 _ _ E) in Hf|rewrite (S1 _ _ E) in Hf]; discriminate. }
  assert (Sk : same_obj k) by (intros o1 t1; cbn; destruct tok; [intros [= <- _]; reflexivity|discriminate]).
  assert (Hz : forall o' t', holds1 o' t' z = (holds1 o' t' y + taken o tok o' t')%Z).
  { intros o' t'. unfold z, holds1, set_ctx. assert (K : ctx_holds o' t' k = taken o tok o' t') by (unfold ctx_holds, k, taken; cbn [mc_uc]; destruct tok; reflexivity).
    assert (K0 : ctx_holds o' t' (if sess then xm_sess y else xm_peer y) = 0%Z) by (unfold ctx_holds; rewrite Eu; reflexivity).
    destruct sess; cbn [xm_peer xm_sess]; rewrite K, K0; lia. }
  assert (Hx : x_msgs x' = x_msgs (x_upd z x) /\ forall o' t', x_cnt x' o' t' = (x_cnt x o' t' + taken o tok o' t')%Z).
  { destruct tok as [t|].
    - apply use_inv in H as [A C]. split; [exact A|]. intros o' t'. rewrite C. reflexivity.
    - injection H as <-. split; [reflexivity|]. intros. unfold taken. cbn [x_upd x_cnt]. lia. }
  destruct Hx as [A C]. apply (counts_upd v x x' y z B Hy); [unfold z, set_ctx; destruct sess; reflexivity| | |exact A|].
  - unfold z, set_ctx. destruct sess; [exact S1|exact Sk].
  - unfold z, set_ctx. destruct sess; [exact Sk|exact S2].
  - intros o' t'. rewrite C, Hz. split; lia.
Qed.
Lemma holds_inv_other o o' tok k : same_obj k -> (o =? o') = false -> ctx_holds o' tok (inv_ctx o k) = ctx_holds o' tok k.
Proof.
  intros S N. unfold inv_ctx. destruct (mc_fi k) as [i|] eqn:E; [|reflexivity]. destruct (N.eqb_spec i o) as [->|]; [|reflexivity].
  unfold ctx_holds at 2. destruct (mc_uc k) as [[o1 t1]|] eqn:Eu; [|reflexivity]. apply S in Eu. rewrite Eu in E. injection E as ->. rewrite N. reflexivity.
Qed.
Lemma invalidate_counts v o y x : base x -> In y (x_msgs x) -> (forall o', is_inv o' v = (o =? o')) -> counts v x (x_upd (invalidate o y) x).
Proof.
  intros B Hy Hv. destruct (proj2 B y Hy) as [S1 S2]. apply (counts_upd v x _ y (invalidate o y) B Hy); [reflexivity|apply same_inv, S1|apply same_inv, S2|reflexivity|].
  intros o' tok. cbn [x_upd x_cnt]. unfold holds1. cbn [invalidate xm_peer xm_sess]. pose proof (holds_inv o (xm_peer y) o' tok). pose proof (holds_inv o (xm_sess y) o' tok). split; [lia|].
  rewrite Hv. intros N. rewrite !holds_inv_other by assumption. lia.
Qed.
Lemma step_counts c x v x' : base x -> x_step c x v = POk x' -> counts v x x'.
Proof.
  intros B H. destruct v as [m rx|m o|sess m o tok|m|m o|o|o|m|m|o]; cbn [x_step] in H.
  - destruct (x_find m x) eqn:Ef; [discriminate|]. injection H as <-. split.
    + split; cbn [x_msgs].
      * cbn [map]. constructor; [|exact (proj1 B)]. intros Hi. apply in_map_iff in Hi as (z & Ez & Hz). unfold x_find in Ef. apply (find_none _ _ Ef) in Hz. rewrite Ez in Hz. cbn in Hz. rewrite N.eqb_refl in Hz. discriminate.
      * intros y [<-|Hy]; [split; apply same_no|exact (proj2 B y Hy)].
    + intros o tok. unfold surplus. cbn [x_cnt x_msgs]. rewrite holds_cons. change (holds1 o tok _) with 0%Z. split; lia.
  - destruct (x_app m x) as [y|] eqn:Ea; [|discriminate]. apply x_app_in in Ea as (Hy & _ & _). destruct (is_dead o x); [discriminate|].
    destruct (mc_fi (xm_peer y)) eqn:Ef; [injection H as <-; apply counts_refl, B|]. exact (attach_counts _ false o _ y x x' B Hy Ef H).
  - destruct (x_app m x) as [y|] eqn:Ea; [|discriminate]. apply x_app_in in Ea as (Hy & _ & _). destruct (is_dead o x); [discriminate|].
    destruct (mc_fi (if sess then xm_sess y else xm_peer y)) eqn:Ef; [discriminate|]. exact (attach_counts _ sess o _ y x x' B Hy Ef H).
  - destruct (x_app m x) as [y|]; [|discriminate]. apply x_bind_inv in H as (? & _ & H). injection H as <-. apply counts_refl, B.
  - unfold x_find in H. destruct (find _ (x_msgs x)) as [y|] eqn:Ea; [|discriminate]. apply find_in in Ea as (Hy & _).
    assert (x' = x_upd (invalidate o y) x) as -> by (destruct (xm_own y); congruence). apply (invalidate_counts _ o y x B Hy). reflexivity.
  - injection H as <-. set (f := fun y => match xm_own y with XoQueue _ => invalidate o y | _ => y end).
    assert (G : forall y, xm_nr (f y) = xm_nr y /\ (f y = y \/ f y = invalidate o y)) by (intros y; unfold f; destruct (xm_own y) eqn:Eo; auto).
    split.
    + split; cbn [x_msgs].
      * rewrite map_map. rewrite (map_ext (fun y => xm_nr (f y)) xm_nr) by (intros y; apply G). exact (proj1 B).
      * intros z Hz. apply in_map_iff in Hz as (y & <- & Hy). destruct (proj2 B y Hy) as [S1 S2]. fold (f y). destruct (G y) as (_ & [-> | ->]); [split; assumption|split; apply same_inv; assumption].
    + intros o' tok. unfold surplus. cbn [x_cnt x_msgs]. fold f.
      assert (K : (holds o' tok (map f (x_msgs x)) <= holds o' tok (x_msgs x))%Z /\ ((o =? o') = false -> holds o' tok (map f (x_msgs x)) = holds o' tok (x_msgs x))).
      { pose proof (proj2 B) as S. revert S. induction (x_msgs x) as [|y M IH]; intros S; [split; [cbn; lia|reflexivity]|]. destruct (IH (fun w Hw => S w (or_intror Hw))) as [I1 I2].
        cbn [map]. rewrite !holds_cons. destruct (S y (or_introl eq_refl)) as [S1 S2].
        assert (X : (holds1 o' tok (f y) <= holds1 o' tok y)%Z /\ ((o =? o') = false -> holds1 o' tok (f y) = holds1 o' tok y)).
        { destruct (G y) as (_ & [-> | ->]); [split; [lia|reflexivity]|]. unfold holds1. cbn [invalidate xm_peer xm_sess]. pose proof (holds_inv o (xm_peer y) o' tok). pose proof (holds_inv o (xm_sess y) o' tok).
          split; [lia|]. intros N. rewrite !holds_inv_other by assumption. reflexivity. }
        destruct X as [X1 X2]. split; [lia|]. intros N. specialize (I2 N). specialize (X2 N). lia. }
      destruct K as [K1 K2]. split; [lia|]. cbn [is_inv]. intros N. specialize (K2 N). lia.
  - destruct (is_dead o x); [discriminate|]. injection H as <-. split; [exact B|]. intros. split; [apply Z.le_refl|reflexivity].
  - destruct (existsb x_given (x_msgs x)); [discriminate|]. destruct (x_app m x) as [y|] eqn:Ea; [|discriminate]. apply x_app_in in Ea as (Hy & _ & _). injection H as <-. apply own_counts; assumption.
  - destruct (x_app m x) as [y|] eqn:Ea; [|discriminate]. apply x_app_in in Ea as (Hy & _ & _). exact (destructor_counts _ y x x' B Hy H).
  - destruct o as [id to h ies cb|sid n|[id|] t to bs|[id|]|id r|from h ies rq|id|id [|]|id t]; try (injection H as <-; apply counts_refl, B).
    + destruct (find x_given (x_msgs x)) as [y|] eqn:Ef; [|discriminate]. apply find_in in Ef as [Hy _]. apply x_bind_inv in H as (? & _ & H). injection H as <-. apply own_counts; assumption.
    + destruct (find (x_at id) (x_msgs x)) as [y|] eqn:Ef; [|discriminate]. apply find_in in Ef as [Hy _]. apply x_bind_inv in H as (? & _ & H). destruct (no_wait c); injection H as <-; [apply counts_refl, B|apply own_counts; assumption].
    + destruct (find (x_at id) (x_msgs x)) as [y|] eqn:Ef; [|discriminate]. apply x_bind_inv in H as (? & _ & H). injection H as <-. apply counts_refl, B.
    + destruct (find (x_at id) (x_msgs x)) as [y|] eqn:Ef; [|discriminate]. apply find_in in Ef as [Hy _]. exact (destructor_counts _ y x x' B Hy H).
    + destruct (no_wait c); [|injection H as <-; apply counts_refl, B]. destruct (find (x_at id) (x_msgs x)) as [y|] eqn:Ef; [|discriminate]. apply find_in in Ef as [Hy _]. injection H as <-. apply own_counts; assumption.
    + destruct (find (x_at id) (x_msgs x)) as [y|] eqn:Ef; [|discriminate]. apply x_bind_inv in H as (? & _ & H). injection H as <-. apply counts_refl, B.
Qed.
Lemma base0 : base xst0.
Proof. split; cbn; [constructor|contradiction]. Qed.
Lemma run_counts c l : forall x x', base x -> x_run c x l = POk x' -> base x' /\ forall o tok, (surplus x o tok <= surplus x' o tok)%Z /\ (existsb (is_inv o) l = false -> surplus x' o tok = surplus x o tok).
Proof.
  induction l as [|v l IH]; intros x x' B H.
  - injection H as <-. split; [exact B|]. intros. split; [lia|reflexivity].
  - cbn [x_run] in H. apply x_bind_inv in H as (x1 & H1 & H). destruct (step_counts c x v x1 B H1) as [B1 C1]. destruct (IH x1 x' B1 H) as [B2 C2]. split; [exact B2|].
    intros o tok. destruct (C1 o tok) as [D1 D2], (C2 o tok) as [F1 F2]. split; [lia|]. cbn [existsb]. intros N. apply orb_false_iff in N as [N1 N2]. rewrite F2 by exact N2. exact (D2 N1).
Qed.
Theorem counts_exact c l x o tok : x_run c xst0 l = POk x -> existsb (is_inv o) l = false -> x_cnt x o tok = holds o tok (x_msgs x).
Proof. intros H N. destruct (run_counts c l xst0 x base0 H) as [_ C]. destruct (C o tok) as [_ E]. specialize (E N). change (surplus xst0 o tok) with 0%Z in E. unfold surplus in E. lia. Qed.
Theorem counts_enough c l x o tok : x_run c xst0 l = POk x -> (holds o tok (x_msgs x) <= x_cnt x o tok)%Z.
Proof. intros H. destruct (run_counts c l xst0 x base0 H) as [_ C]. destruct (C o tok) as [E _]. change (surplus xst0 o tok) with 0%Z in E. unfold surplus in E. lia. Qed.

(* ---------------------------------------------------------------- counted contexts *)
Definition full (k : mctx) : Prop := forall o, mc_fi k = Some o -> exists tok, mc_uc k = Some (o, tok).
Definition fulls (x : xst) : Prop := forall y, In y (x_msgs x) -> full (xm_peer y) /\ full (xm_sess y).
Lemma full_no : full no_ctx. Proof. intros o [=]. Qed.
Lemma fulls_upd x x' z : fulls x -> full (xm_peer z) -> full (xm_sess z) -> x_msgs x' = x_msgs (x_upd z x) -> fulls x'.
Proof. intros F F1 F2 E y Hy. rewrite E in Hy. cbn [x_upd x_msgs] in Hy. apply upd_in in Hy as [->|[Hy _]]; [split; assumption|exact (F y Hy)]. Qed.
Lemma fulls_own x y w : fulls x -> In y (x_msgs x) -> fulls (x_upd (own w y) x).
Proof. intros F Hy. destruct (F y Hy) as [F1 F2]. apply (fulls_upd x _ (own w y) F F1 F2). reflexivity. Qed.
Lemma fulls_free x x' y : fulls x -> destructor y x = POk x' -> fulls x'.
Proof.
  intros F H. unfold destructor in H. apply x_bind_inv in H as (? & _ & H). apply x_bind_inv in H as (x1 & H1 & H). apply x_bind_inv in H as (x2 & H2 & H). injection H as <-.
  apply put_inv in H1 as [A1 _]. apply put_inv in H2 as [C1 _]. apply (fulls_upd x _ (mkXmsg (xm_nr y) (xm_rx y) no_ctx no_ctx XoFreed) F full_no full_no). cbn [x_upd x_msgs]. rewrite C1, A1. reflexivity.
Qed.
Lemma fulls_attach x x' y (sess : bool) o t : fulls x -> In y (x_msgs x) -> attach sess o (Some t) y x = POk x' -> fulls x'.
Proof.
  intros F Hy H. destruct (F y Hy) as [F1 F2]. unfold attach in H. apply use_inv in H as [A _].
  assert (Fk : full (mkMctx (Some o) (Some (o, t)))) by (intros o1 [= <-]; exists t; reflexivity).
  refine (fulls_upd x x' _ F _ _ A); unfold set_ctx; destruct sess; assumption.
Qed.
Lemma fulls_step c x v x' : fulls x -> counted v -> x_step c x v = POk x' -> fulls x'.
Proof.
  intros F Hv H. destruct v as [m rx|m o|sess m o tok|m|m o|o|o|m|m|o]; cbn [x_step] in H; try contradiction.
  - destruct (x_find m x); [discriminate|]. injection H as <-. intros y [<-|Hy]; [split; apply full_no|exact (F y Hy)].
  - destruct (x_app m x) as [y|] eqn:Ea; [|discriminate]. apply x_app_in in Ea as (Hy & _ & _). destruct (is_dead o x); [discriminate|].
    destruct (mc_fi (xm_peer y)); [injection H as <-; exact F|]. exact (fulls_attach _ _ _ _ _ _ F Hy H).
  - destruct tok as [t|]; [|contradiction]. destruct (x_app m x) as [y|] eqn:Ea; [|discriminate]. apply x_app_in in Ea as (Hy & _ & _). destruct (is_dead o x); [discriminate|].
    destruct (mc_fi (if sess then xm_sess y else xm_peer y)); [discriminate|]. exact (fulls_attach _ _ _ _ _ _ F Hy H).
  - destruct (x_app m x) as [y|]; [|discriminate]. apply x_bind_inv in H as (? & _ & H). injection H as <-. exact F.
  - destruct (is_dead o x); [discriminate|]. injection H as <-. exact F.
  - destruct (existsb x_given (x_msgs x)); [discriminate|]. destruct (x_app m x) as [y|] eqn:Ea; [|discriminate]. apply x_app_in in Ea as (Hy & _ & _). injection H as <-. apply fulls_own; assumption.
  - destruct (x_app m x) as [y|] eqn:Ea; [|discriminate]. exact (fulls_free x x' y F H).
  - destruct o as [id to h ies cb|sid n|[id|] t to bs|[id|]|id r|from h ies rq|id|id [|]|id t]; try (injection H as <-; exact F).
    + destruct (find x_given (x_msgs x)) as [y|] eqn:Ef; [|discriminate]. apply find_in in Ef as [Hy _]. apply x_bind_inv in H as (? & _ & H). injection H as <-. apply fulls_own; assumption.
    + destruct (find (x_at id) (x_msgs x)) as [y|] eqn:Ef; [|discriminate]. apply find_in in Ef as [Hy _]. apply x_bind_inv in H as (? & _ & H). destruct (no_wait c); injection H as <-; [exact F|apply fulls_own; assumption].
    + destruct (find (x_at id) (x_msgs x)) as [y|] eqn:Ef; [|discriminate]. apply x_bind_inv in H as (? & _ & H). injection H as <-. exact F.
    + destruct (find (x_at id) (x_msgs x)) as [y|] eqn:Ef; [|discriminate]. exact (fulls_free x x' y F H).
    + destruct (no_wait c); [|injection H as <-; exact F]. destruct (find (x_at id) (x_msgs x)) as [y|] eqn:Ef; [|discriminate]. apply find_in in Ef as [Hy _]. injection H as <-. apply fulls_own; assumption.
    + destruct (find (x_at id) (x_msgs x)) as [y|] eqn:Ef; [|discriminate]. apply x_bind_inv in H as (? & _ & H). injection H as <-. exact F.
Qed.
Lemma fulls_run c l : forall x x', fulls x -> Forall counted l -> x_run c x l = POk x' -> fulls x'.
Proof.
  induction l as [|v l IH]; intros x x' F Hc H; [injection H as <-; exact F|]. inversion Hc as [|? ? H1 H2]; subst. cbn [x_run] in H. apply x_bind_inv in H as (x1 & E1 & E2).
  exact (IH x1 x' (fulls_step c x v x1 F H1 E1) H2 E2).
Qed.
Lemma ctx_uc_holds o tok k : mc_uc k = Some (o, tok) -> ctx_holds o tok k = 1%Z.
Proof. unfold ctx_holds. intros ->. rewrite !N.eqb_refl. reflexivity. Qed.
Lemma unused_no_ref c l x o : x_run c xst0 l = POk x -> Forall counted l -> unused x o -> forall y, In y (x_msgs x) -> ~ refers y o.
Proof.
  intros H Hc Hu y Hy Hr.
  assert (F : fulls x) by (apply (fulls_run c l xst0 x); [intros w []|exact Hc|exact H]). destruct (F y Hy) as [F1 F2].
  assert (K : exists tok, mc_uc (xm_peer y) = Some (o, tok) \/ mc_uc (xm_sess y) = Some (o, tok)).
  { destruct Hr as [[E|(t & E)]|[E|(t & E)]]; [apply F1 in E as (t & E)| |apply F2 in E as (t & E)|]; exists t; tauto. }
  destruct K as (tok & K). pose proof (counts_enough c l x o tok H) as Hle. rewrite (Hu tok) in Hle. pose proof (holds_in o tok y _ Hy) as H1. unfold holds1 in H1.
  pose proof (ctx_holds_nonneg o tok (xm_peer y)). pose proof (ctx_holds_nonneg o tok (xm_sess y)). destruct K as [K|K]; apply ctx_uc_holds in K; lia.
Qed.
Theorem counted_safe c s l u : reachable c s -> x_obs l = rev (e_trace s) -> Forall counted l -> at_destroy c unused l -> x_run c xst0 l <> PUB u.
Proof.
  intros R EL Hc Hd. apply (ctx_safe c s l R EL). intros l1 o l2 x E Er. apply (unused_no_ref c l1 x o Er); [|exact (Hd l1 o l2 x E Er)].
  rewrite E in Hc. apply Forall_app in Hc as [Hc _]. exact Hc.
Qed.

(* ---------------------------------------------------------------- invalidated contexts *)
Lemma inv_msg_step c x m o x' : base x -> x_step c x (XInvMsg m o) = POk x' -> (forall y, In y (x_msgs x') -> refers y o -> (exists y0, In y0 (x_msgs x) /\ xm_nr y0 = xm_nr y /\ refers y0 o) /\ xm_nr y <> m).
Proof.
  intros B H. cbn [x_step] in H. unfold x_find in H. destruct (find _ (x_msgs x)) as [y|] eqn:Ea; [|discriminate]. apply find_in in Ea as (Hy & En). apply N.eqb_eq in En.
  assert (x' = x_upd (invalidate o y) x) as -> by (destruct (xm_own y); congruence). clear H. intros w Hw Hr. cbn [x_upd x_msgs] in Hw. apply upd_in in Hw as [->|[Hw N]].
  - exfalso. destruct (proj2 B y Hy) as [S1 S2]. destruct (invalidate_refers o y o S1 S2 Hr) as [_ N]. exact (N eq_refl).
  - split; [exists w; auto|]. cbn [invalidate xm_nr] in N. congruence.
Qed.
Lemma inv_msgs_run c o ms : forall x x', base x -> x_run c x (map (fun m => XInvMsg m o) ms) = POk x' ->
  forall y, In y (x_msgs x') -> refers y o -> (exists y0, In y0 (x_msgs x) /\ xm_nr y0 = xm_nr y /\ refers y0 o) /\ ~ In (xm_nr y) ms.
Proof.
  induction ms as [|m ms IH]; intros x x' B H y Hy Hr; [injection H as <-; split; [exists y; auto|auto]|]. cbn [map x_run] in H. apply x_bind_inv in H as (x1 & H1 & H2).
  pose proof (proj1 (step_counts _ _ _ _ B H1)) as B1. destruct (IH x1 x' B1 H2 y Hy Hr) as [(y1 & Hy1 & E1 & Hr1) N1].
  destruct (inv_msg_step c x m o x1 B H1 y1 Hy1 Hr1) as [(y0 & Hy0 & E0 & Hr0) N0]. split; [exists y0; split; [exact Hy0|split; [congruence|exact Hr0]]|]. cbn [In]. intros [E|E]; [congruence|contradiction].
Qed.
Lemma inv_ep_step c x o x' : base x -> x_step c x (XInvEp o) = POk x' -> forall y, In y (x_msgs x') -> refers y o -> In y (x_msgs x) /\ ~ queued y.
Proof.
  intros B [= <-] y Hy Hr. cbn [x_msgs] in Hy. apply in_map_iff in Hy as (w & Ew & Hw). destruct (proj2 B w Hw) as [S1 S2].
  destruct (xm_own w) eqn:Eo; subst y; try (split; [exact Hw|intros (i0 & Q); congruence]).
  exfalso. destruct (invalidate_refers o w o S1 S2 Hr) as [_ N]. exact (N eq_refl).
Qed.
Lemma x_run_app c a b : forall x, x_run c x (a ++ b) = x_bind (x_run c x a) (fun y => x_run c y b).
Proof. induction a as [|v a IH]; intros x; [reflexivity|]. cbn [app x_run]. destruct (x_step c x v); cbn [x_bind]; [apply IH|reflexivity|reflexivity]. Qed.
Theorem invalidated_safe c s l u : reachable c s -> x_obs l = rev (e_trace s) -> invalidated c l -> x_run c xst0 l <> PUB u.
Proof.
  intros R EL Hd. apply (ctx_safe c s l R EL). intros l1 o l2 x E Er y Hy Hr. destruct (Hd l1 o l2 E) as (l0 & ms & -> & Hq).
  rewrite x_run_app in Er. apply x_bind_inv in Er as (x0 & E0 & Er). cbn [x_run] in Er. apply x_bind_inv in Er as (x1 & E1 & Er).
  pose proof (proj1 (run_counts c l0 _ _ base0 E0)) as B0. pose proof (proj1 (step_counts _ _ _ _ B0 E1)) as B1.
  destruct (inv_msgs_run c o ms x1 x B1 Er y Hy Hr) as [(y1 & Hy1 & En & Hr1) N1]. destruct (inv_ep_step c x0 o x1 B0 E1 y1 Hy1 Hr1) as [Hy0 Nq].
  destruct (Hq x0 E0 y1 Hy0 Hr1) as [Q|Q]; [contradiction|]. rewrite En in Q. contradiction.
Qed.
Theorem invalidate_ep c l x o : x_run c xst0 l = POk x -> exists x', x_run c xst0 (l ++ [XInvEp o]) = POk x'
  /\ x_dead x' = x_dead x /\ x_cnt x' = x_cnt x
  /\ Forall2 (fun y y' => xm_nr y' = xm_nr y /\ xm_rx y' = xm_rx y /\ xm_own y' = xm_own y
       /\ (queued y -> ~ refers y' o) /\ (~ queued y -> y' = y)
       /\ (~ ctx_refers (xm_peer y) o -> xm_peer y' = xm_peer y) /\ (~ ctx_refers (xm_sess y) o -> xm_sess y' = xm_sess y)) (x_msgs x) (x_msgs x').
Proof.
  intros H. eexists. split; [rewrite x_run_snoc, H; reflexivity|]. split; [reflexivity|]. split; [reflexivity|]. cbn [x_msgs].
  pose proof (proj2 (proj1 (run_counts c l _ _ base0 H))) as S. induction (x_msgs x) as [|y M IH]; [constructor|]. cbn [map]. constructor; [|apply IH; intros w Hw; exact (S w (or_intror Hw))].
  destruct (S y (or_introl eq_refl)) as [S1 S2]. unfold queued. destruct (xm_own y) as [| |i|i|] eqn:Eo; cbn [invalidate xm_nr xm_rx xm_own xm_peer xm_sess];
    do 3 (split; [congruence|]); (split; [intros (? & ?); try discriminate|split; [intros N; try reflexivity|]]).
  all: try (split; reflexivity).
  - intros Hr. destruct (invalidate_refers o y o S1 S2 Hr) as [_ X]. exact (X eq_refl).
  - destruct N. exists i. reflexivity.
  - assert (K : forall k, ~ ctx_refers k o -> inv_ctx o k = k).
    { intros k N. unfold inv_ctx. destruct (mc_fi k) as [j|] eqn:Ej; [|reflexivity]. destruct (N.eqb_spec j o) as [->|]; [|reflexivity]. destruct N. left. exact Ej. }
    split; apply K.
Qed.
(* the two ways do not mix *)
Theorem mixed c l1 l2 o tok x1 x : x_run c xst0 l1 = POk x1 -> (exists y, In y (x_msgs x1) /\ queued y /\ (mc_uc (xm_peer y) = Some (o, tok) \/ mc_uc (xm_sess y) = Some (o, tok))) ->
  x_run c xst0 (l1 ++ XInvEp o :: l2) = POk x -> (0 < x_cnt x o tok)%Z.
Proof.
  intros H1 (y & Hy & Hq & Hu) H. rewrite x_run_app, H1 in H. cbn [x_bind x_run] in H. apply x_bind_inv in H as (x2 & E2 & E3).
  pose proof (proj1 (run_counts c l1 _ _ base0 H1)) as B1. pose proof (proj1 (step_counts _ _ _ _ B1 E2)) as B2.
  pose proof (proj1 (proj2 (run_counts c l2 _ _ B2 E3) o tok)) as Hs. pose proof (holds_nonneg o tok (x_msgs x)) as Hn.
  assert (X : (0 < surplus x2 o tok)%Z); [|unfold surplus in *; lia].
  pose proof (counts_enough c l1 x1 o tok H1) as Hle. injection E2 as <-. unfold surplus. cbn [x_cnt x_msgs].
  enough (G : (holds o tok (map (fun y => match xm_own y with XoQueue _ => invalidate o y | _ => y end) (x_msgs x1)) < holds o tok (x_msgs x1))%Z) by lia.
  pose proof (proj2 B1) as S. clear -Hy Hq Hu S. induction (x_msgs x1) as [|w M IH]; [destruct Hy|]. cbn [map]. rewrite !holds_cons.
  set (f := fun y => match xm_own y with XoQueue _ => invalidate o y | _ => y end) in *.
  assert (X : forall v, (holds1 o tok (f v) <= holds1 o tok v)%Z).
  { intros v. unfold f. pose proof (holds_inv o (xm_peer v) o tok). pose proof (holds_inv o (xm_sess v) o tok). destruct (xm_own v); unfold holds1; cbn [invalidate xm_peer xm_sess]; lia. }
  assert (Y : (holds o tok (map f M) <= holds o tok M)%Z) by (clear -X; induction M as [|v M IH]; [cbn; lia|]; cbn [map]; rewrite !holds_cons; specialize (X v); lia).
  fold (f w).   destruct Hy as [->|Hy]; [|specialize (IH Hy (fun v Hv => S v (or_intror Hv))); specialize (X w); lia].
  enough (Z : (holds1 o tok (f y) < holds1 o tok y)%Z) by lia.
  destruct (S y (or_introl eq_refl)) as [S1 S2]. destruct Hq as (i & Eq). unfold f. rewrite Eq. unfold holds1. cbn [invalidate xm_peer xm_sess].
  assert (K : forall k, mc_uc k = Some (o, tok) -> same_obj k -> ctx_holds o tok (inv_ctx o k) = 0%Z /\ ctx_holds o tok k = 1%Z).
  { intros k Ek Sk. split; [|exact (ctx_uc_holds o tok k Ek)]. unfold inv_ctx. rewrite (Sk _ _ Ek), N.eqb_refl. reflexivity. }
  pose proof (holds_inv o (xm_peer y) o tok). pose proof (holds_inv o (xm_sess y) o tok). destruct Hu as [Hu|Hu]; apply K in Hu as [K1 K2]; try assumption; lia.
Qed.
