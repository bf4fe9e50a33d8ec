(* UseCountProofs.v -- proofs about the peer use counts of CpPeerModel.v *)
From Verif Require Import Base BaseProofs GtlvModel DecEncModel IesModel IesProofs TablesModel MsgModel EndpointModel EndpointSpec
  EndpointProofs EndpointRun EndpointLife EndpointFinal EndpointProps EndpointExt EndpointProps2 EndpointProps3 CpPeerModel CpPeerSpec CpPeerProofs CpPeerProps.

Fixpoint pend (g : option N) (l : list pentry) : option N :=
  match l with
  | [] => g
  | VGive m :: l' => pend (Some m) l'
  | VOwnTx _ :: l' => pend None l'
  | VEp (OTx _ _ _ _ _) :: l' => pend None l'
  | _ :: l' => pend g l'
  end.
(* the endpoint number, if the entry is a call of osmo_pfcp_endpoint_tx() *)
Definition tx_id (v : pentry) : option N := match v with VOwnTx id => Some id | VEp (OTx id _ _ _ _) => Some id | _ => None end.
Definition relv (G : list (N * N)) (m : N) (v : pentry) : bool :=
  match v with
  | VDealloc i => i =? m
  | VEp (OFree id) => existsb (fun g => (fst g =? m) && (snd g =? id)) G
  | _ => false
  end.
Lemma released_eq l m : released l m = existsb (relv (gave None l) m) l.
Proof. reflexivity. Qed.

Lemma gave_snoc v l : forall g, gave g (l ++ [v]) = gave g l ++ match tx_id v, pend g l with Some id, Some m => [(m, id)] | _, _ => [] end.
Proof.
  induction l as [|w l IH]; intros g.
  - destruct v as [| | | | | | | | | |o]; cbn; try reflexivity; try (destruct g; reflexivity). destruct o; cbn; try reflexivity; destruct g; reflexivity.
  - destruct w as [| | | | | | | | |i|o]; cbn [app gave pend]; try apply IH; [destruct g; cbn [app]; rewrite IH; reflexivity|].
    destruct o; cbn [app gave pend]; try apply IH. destruct g; cbn [app]; rewrite IH; reflexivity.
Qed.
Lemma pend_snoc v l : forall g, pend g (l ++ [v]) = match v with VGive m => Some m | _ => match tx_id v with Some _ => None | None => pend g l end end.
Proof.
  induction l as [|w l IH]; intros g.
  - destruct v as [| | | | | | | | | |o]; cbn; try reflexivity. destruct o; reflexivity.
  - destruct w as [| | | | | | | | |i|o]; cbn [app pend]; try apply IH. destruct o; cbn [app pend]; apply IH.
Qed.
Lemma alloc_snoc v l : allocated (l ++ [v]) = allocated l ++ match v with VAlloc m rx => [(m, rx)] | _ => [] end.
Proof. induction l as [|w l IH]; [destruct v; reflexivity|]. destruct w; cbn [app allocated]; rewrite ?IH; reflexivity. Qed.
Lemma find_snoc {A} (f : A -> bool) v l : find f (l ++ [v]) = match find f l with Some x => Some x | None => if f v then Some v else None end.
Proof. induction l as [|w l IH]; [reflexivity|]. cbn [app find]. destruct (f w); [reflexivity|apply IH]. Qed.
Lemma released_snoc v l m : tx_id v = None -> released (l ++ [v]) m = released l m || relv (gave None l) m v.
Proof.
  intros H. rewrite !released_eq, gave_snoc, H, app_nil_r, existsb_app. cbn [existsb]. rewrite orb_false_r. reflexivity.
Qed.
Lemma relv_app G m0 id m v : relv (G ++ [(m0, id)]) m v = relv G m v || match v with VEp (OFree i) => (m0 =? m) && (id =? i) | _ => false end.
Proof. destruct v as [| | | | | | | | | |o]; cbn; try reflexivity; [rewrite orb_false_r; reflexivity|]. destruct o; cbn; try reflexivity. rewrite existsb_app. cbn. rewrite orb_false_r. reflexivity. Qed.
Lemma released_tx v l id m0 m : tx_id v = Some id -> pend None l = Some m0 -> ~ In (VEp (OFree id)) l -> released (l ++ [v]) m = released l m.
Proof.
  intros H P N. rewrite !released_eq, gave_snoc, H, P, existsb_app. cbn [existsb].
  assert (V : relv (gave None l ++ [(m0, id)]) m v = false) by (destruct v as [| | | | | | | | | |o]; try discriminate; [reflexivity|destruct o; try discriminate; reflexivity]).
  rewrite V, !orb_false_r. clear V. assert (X : forall G l0, ~ In (VEp (OFree id)) l0 -> existsb (relv (G ++ [(m0, id)]) m) l0 = existsb (relv G m) l0); [|apply X; exact N].
  intros G l0 N0. induction l0 as [|w l0 IH]; [reflexivity|]. cbn [existsb]. rewrite IH by (intros Y; apply N0; right; exact Y). rewrite relv_app. f_equal.
  destruct w as [| | | | | | | | | |o]; try apply orb_false_r. destruct o; try apply orb_false_r.
  destruct (N.eqb_spec id id0) as [->|]; [destruct N0; left; reflexivity|]. rewrite andb_false_r. apply orb_false_r.
Qed.

(* ---------------------------------------------------------------- a message's state, from the log *)
Definition opt_is (o : option N) (m : N) : bool := match o with Some i => i =? m | None => false end.
Definition own_of (l : list pentry) (m : N) : uowner :=
  if released l m then OwFreed
  else match find (fun g => fst g =? m) (gave None l) with
       | Some g => OwEp (snd g)
       | None => if opt_is (pend None l) m then OwGiven else OwApp
       end.
Definition ctx_of (l : list pentry) (m : N) : uctx :=
  if released l m then CtxNone
  else match find (is_set_ctx m) l with Some (VSetCtx _) => CtxThis | Some _ => CtxOther | None => CtxNone end.
Definition umsg_of (l : list pentry) (x : N * bool) : umsg := mkUmsg (fst x) (snd x) (ctx_of l (fst x)) (own_of l (fst x)).
Definition this (rx : bool) (x : umsg) : bool := Bool.eqb (um_rx x) rx && match um_ctx x with CtxThis => true | _ => false end.
Definition cntf (f : umsg -> bool) (M : list umsg) : Z := Z.of_nat (length (filter f M)).
Definition b2z (b : bool) : Z := if b then 1%Z else 0%Z.

Record uinv (k : peer_cfg) (l : list pentry) (u : ucount) : Prop := mkUinv {
  ui_msgs : u_msgs u = rev (map (umsg_of l) (allocated l));
  ui_nodup : NoDup (map fst (allocated l));
  ui_unalloc : forall m, ~ In m (map fst (allocated l)) -> released l m = false /\ find (is_set_ctx m) l = None /\ pend None l <> Some m /\ ~ In m (map fst (gave None l));
  ui_pend : forall m, pend None l = Some m -> released l m = false /\ ~ In m (map fst (gave None l));
  ui_nodup2 : NoDup (map fst (gave None l));
  ui_nodup3 : NoDup (map snd (gave None l));
  ui_dealloc : forall m, In m (map fst (gave None l)) -> ~ In (VDealloc m) l;
  ui_tx : forall id to h ies cb, In (OTx id to h ies cb) (ep_obs k l) -> In id (map snd (gave None l));
  ui_tx2 : forall id, In id (map snd (gave None l)) -> exists to h ies cb, In (OTx id to h ies cb) (ep_obs k l);
  ui_rx : u_rx u = cntf (this true) (u_msgs u);
  ui_txc : u_tx u = cntf (this false) (u_msgs u);
}.

Lemma cntf_cons f x M : cntf f (x :: M) = (b2z (f x) + cntf f M)%Z.
Proof. unfold cntf. cbn [filter]. destruct (f x); cbn [length b2z]; lia. Qed.
Lemma upd_none y M : ~ In (um_nr y) (map um_nr M) -> map (fun x => if um_nr x =? um_nr y then y else x) M = M.
Proof.
  induction M as [|x M IH]; [reflexivity|]. cbn [map In]. intros N. rewrite IH by tauto. destruct (N.eqb_spec (um_nr x) (um_nr y)); [tauto|reflexivity].
Qed.
Lemma cnt_upd f y x M : NoDup (map um_nr M) -> In x M -> um_nr x = um_nr y ->
  cntf f (map (fun z => if um_nr z =? um_nr y then y else z) M) = (cntf f M - b2z (f x) + b2z (f y))%Z.
Proof.
  induction M as [|w M IH]; intros ND Hx E; [destruct Hx|]. cbn [map] in *. inversion ND as [|? ? N1 N2]; subst. rewrite !cntf_cons. destruct Hx as [->|Hx].
  - rewrite E, N.eqb_refl, upd_none by (rewrite <- E; exact N1). lia.
  - destruct (N.eqb_spec (um_nr w) (um_nr y)) as [Ew|_]; [destruct N1; rewrite Ew, <- E; apply in_map; exact Hx|]. rewrite (IH N2 Hx E). lia.
Qed.
Lemma map_nr l A : map um_nr (rev (map (umsg_of l) A)) = rev (map fst A).
Proof. rewrite map_rev, map_map. reflexivity. Qed.
Lemma nodup_fst {B} (A : list (N * B)) m a b : NoDup (map fst A) -> In (m, a) A -> In (m, b) A -> a = b.
Proof.
  induction A as [|[m0 x] A IH]; intros ND H1 H2; [destruct H1|]. cbn in ND. inversion ND as [|? ? N1 N2]; subst.
  destruct H1 as [[= -> ->]|H1], H2 as [[= E2]|H2]; try congruence; [| |exact (IH N2 H1 H2)]; destruct N1.
  - apply (in_map fst) in H2. exact H2.
  - subst. apply (in_map fst) in H1. exact H1.
Qed.
Lemma u_find_iff k l u m : uinv k l u -> match u_find m u with Some x => exists rx, In (m, rx) (allocated l) /\ x = umsg_of l (m, rx) | None => ~ In m (map fst (allocated l)) end.
Proof.
  intros I. unfold u_find. destruct (find _ (u_msgs u)) as [x|] eqn:E.
  - apply find_some in E. destruct E as [E1 E2]. rewrite (ui_msgs _ _ _ I), <- in_rev, in_map_iff in E1. destruct E1 as ([m' rx] & <- & E1). cbn in E2. apply N.eqb_eq in E2. subst m'.
    exists rx. auto.
  - intros H. apply in_map_iff in H. destruct H as ([m' rx] & Em & H). cbn in Em. subst m'. eapply find_none in E; [|rewrite (ui_msgs _ _ _ I), <- in_rev; apply in_map; exact H].
    cbn in E. rewrite N.eqb_refl in E. discriminate.
Qed.
(* one message changes *)
Lemma upd_msgs l l' A y rx : NoDup (map fst A) -> In (um_nr y, rx) A -> y = umsg_of l' (um_nr y, rx) ->
  (forall m, m <> um_nr y -> released l' m = released l m /\ find (is_set_ctx m) l' = find (is_set_ctx m) l
     /\ find (fun g => fst g =? m) (gave None l') = find (fun g => fst g =? m) (gave None l) /\ opt_is (pend None l') m = opt_is (pend None l) m) ->
  map (fun z => if um_nr z =? um_nr y then y else z) (rev (map (umsg_of l) A)) = rev (map (umsg_of l') A).
Proof.
  intros ND Hin Ey Ho. rewrite map_rev, map_map. f_equal. apply map_ext_in. intros [m rx'] Hm. cbn [umsg_of fst snd um_nr]. destruct (N.eqb_spec m (um_nr y)) as [->|N].
  - rewrite <- (nodup_fst A (um_nr y) rx rx' ND Hin Hm). exact Ey.
  - destruct (Ho m N) as (H1 & H2 & H3 & H4). unfold umsg_of, ctx_of, own_of. cbn [fst snd]. rewrite H1, H2, H3, H4. reflexivity.
Qed.
Lemma this_msgs l l' A : (forall m, In m (map fst A) -> released l' m = released l m /\ find (is_set_ctx m) l' = find (is_set_ctx m) l
     /\ find (fun g => fst g =? m) (gave None l') = find (fun g => fst g =? m) (gave None l) /\ opt_is (pend None l') m = opt_is (pend None l) m) ->
  map (umsg_of l') A = map (umsg_of l) A.
Proof.
  intros H. apply map_ext_in. intros [m rx] Hm. destruct (H m) as (H1 & H2 & H3 & H4); [apply in_map_iff; exists (m, rx); auto|].
  unfold umsg_of, ctx_of, own_of. cbn [fst snd]. rewrite H1, H2, H3, H4. reflexivity.
Qed.
Lemma find_fst_none (G : list (N * N)) m : find (fun g => fst g =? m) G = None <-> ~ In m (map fst G).
Proof.
  split.
  - intros H Hi. apply in_map_iff in Hi. destruct Hi as (g & <- & Hg). apply (find_none _ _ H) in Hg. rewrite N.eqb_refl in Hg. discriminate.
  - intros H. destruct (find _ G) as [g|] eqn:E; [|reflexivity]. apply find_some in E. destruct E as [E1 E2]. apply N.eqb_eq in E2. destruct H. rewrite <- E2. apply in_map. exact E1.
Qed.

Lemma ctx_neutral m v : is_set_ctx m v = false -> forall l, find (is_set_ctx m) (l ++ [v]) = find (is_set_ctx m) l.
Proof. intros H l. rewrite find_snoc, H. destruct (find _ l); reflexivity. Qed.
Lemma tx_obs k l v : tx_id v = None -> forall id to h ies cb, In (OTx id to h ies cb) (ep_obs k (l ++ [v])) <-> In (OTx id to h ies cb) (ep_obs k l).
Proof.
  intros H id to h ies cb. rewrite ep_obs_app, in_app_iff. split; [|auto]. intros [X|X]; [exact X|exfalso].
  destruct v as [| | | | | | | | |i|o]; try (destruct X; fail); [discriminate|]. destruct X as [->|[]]. discriminate.
Qed.
Lemma cnt_nonneg f M : (0 <= cntf f M)%Z. Proof. unfold cntf. lia. Qed.
Lemma cnt_pos f M x : In x M -> f x = true -> (1 <= cntf f M)%Z.
Proof.
  intros H F. unfold cntf. assert (X : In x (filter f M)) by (apply filter_In; auto). destruct (filter f M); [destruct X|cbn [length]; lia].
Qed.
Lemma alloc_dec l m : In m (map fst (allocated l)) \/ ~ In m (map fst (allocated l)).
Proof. destruct (in_dec N.eq_dec m (map fst (allocated l))); auto. Qed.
Lemma ui_gave_alloc k l u m : uinv k l u -> In m (map fst (gave None l)) -> In m (map fst (allocated l)).
Proof. intros I H. destruct (alloc_dec l m) as [A|A]; [exact A|]. destruct (ui_unalloc _ _ _ I m A) as (_ & _ & _ & X). contradiction. Qed.
Lemma umsg_own l m rx : um_own (umsg_of l (m, rx)) = own_of l m. Proof. reflexivity. Qed.
Lemma own_app l m : own_of l m = OwApp -> released l m = false /\ find (fun g => fst g =? m) (gave None l) = None /\ opt_is (pend None l) m = false.
Proof. unfold own_of. destruct (released l m); [discriminate|]. destruct (find _ _); [discriminate|]. destruct (opt_is _ m); [discriminate|auto]. Qed.
Lemma in_msgs k l u m rx : uinv k l u -> In (m, rx) (allocated l) -> In (umsg_of l (m, rx)) (u_msgs u).
Proof. intros I H. rewrite (ui_msgs _ _ _ I), <- in_rev. apply in_map. exact H. Qed.
Lemma msgs_nodup k l u : uinv k l u -> NoDup (map um_nr (u_msgs u)).
Proof. intros I. rewrite (ui_msgs _ _ _ I), map_nr. apply NoDup_rev. exact (ui_nodup _ _ _ I). Qed.
Lemma gave_find k l u m id : uinv k l u -> In (m, id) (gave None l) -> find (fun g => fst g =? m) (gave None l) = Some (m, id).
Proof.
  intros I H. destruct (find _ _) as [[m' id']|] eqn:E.
  - apply find_some in E. destruct E as [E1 E2]. apply N.eqb_eq in E2. cbn in E2. subst m'. rewrite (nodup_fst _ m id id' (ui_nodup2 _ _ _ I) H E1). reflexivity.
  - apply find_fst_none in E. destruct E. apply (in_map fst) in H. exact H.
Qed.
Lemma nodup_snd (A : list (N * N)) m a b : NoDup (map snd A) -> In (a, m) A -> In (b, m) A -> a = b.
Proof.
  induction A as [|[x m0] A IH]; intros ND H1 H2; [destruct H1|]. cbn in ND. inversion ND as [|? ? N1 N2]; subst.
  destruct H1 as [[= -> ->]|H1], H2 as [[= E2]|H2]; try congruence; [| |exact (IH N2 H1 H2)]; destruct N1.
  - apply (in_map snd) in H2. exact H2.
  - subst. apply (in_map snd) in H1. exact H1.
Qed.

(* a step that is not a call of osmo_pfcp_endpoint_tx() and changes at most message [um_nr y] *)
Lemma uinv_upd k l v u x y rx nrx ntx : uinv k l u -> tx_id v = None -> allocated (l ++ [v]) = allocated l ->
  In (um_nr y, rx) (allocated l) -> x = umsg_of l (um_nr y, rx) -> y = umsg_of (l ++ [v]) (um_nr y, rx) ->
  (forall m, m <> um_nr y -> relv (gave None l) m v = false /\ is_set_ctx m v = false /\ v <> VGive m) ->
  (match v with VGive _ => pend None l = None | _ => True end) ->
  (match v with VGive m => pend None l = None /\ released l m = false /\ ~ In m (map fst (gave None l)) | _ => forall m, pend None l = Some m -> relv (gave None l) m v = false end) ->
  (forall m, v = VDealloc m -> ~ In m (map fst (gave None l))) ->
  nrx = (u_rx u - b2z (this true x) + b2z (this true y))%Z -> ntx = (u_tx u - b2z (this false x) + b2z (this false y))%Z ->
  uinv k (l ++ [v]) (mkUcount nrx ntx (u_msgs (u_upd y u))).
Proof.
  intros I Ht Ha Hin Ex Ey Ho Hg Hp Hd -> ->. pose proof (ui_msgs _ _ _ I) as EM.
  assert (Gv : gave None (l ++ [v]) = gave None l) by (rewrite gave_snoc, Ht, app_nil_r; reflexivity).
  assert (Pv : forall m, m <> um_nr y -> opt_is (pend None (l ++ [v])) m = opt_is (pend None l) m).
  { intros m Hm. rewrite pend_snoc. destruct v as [| | | | | | |g | |i|o]; try (rewrite Ht; reflexivity). rewrite Hg. cbn. apply N.eqb_neq. intros ->. destruct (Ho m Hm) as (_ & _ & X). apply X. reflexivity. }
  assert (Hnx : um_nr x = um_nr y) by (rewrite Ex; reflexivity).
  constructor; rewrite ?Gv; cbn [u_rx u_tx u_msgs u_upd].
  - rewrite Ha, EM. eapply upd_msgs; [exact (ui_nodup _ _ _ I)|exact Hin|exact Ey|]. intros m Hm. destruct (Ho m Hm) as (H1 & H2 & H3).
    rewrite (released_snoc v l m Ht), H1, orb_false_r, (ctx_neutral m v H2), Gv, (Pv m Hm). auto.
  - rewrite Ha. exact (ui_nodup _ _ _ I).
  - rewrite Ha. intros m Hm. assert (N : m <> um_nr y) by (intros ->; apply Hm; apply (in_map fst) in Hin; exact Hin).
    destruct (Ho m N) as (H1 & H2 & H3), (ui_unalloc _ _ _ I m Hm) as (A1 & A2 & A3 & A4).
    rewrite (released_snoc v l m Ht), A1, H1, (ctx_neutral m v H2). repeat split; auto. intros E. pose proof (Pv m N) as P. rewrite E in P. cbn in P. rewrite N.eqb_refl in P.
    destruct (pend None l); [|discriminate]. cbn in P. symmetry in P. apply N.eqb_eq in P. congruence.
  - intros m E. rewrite pend_snoc in E. rewrite (released_snoc v l m Ht). destruct v as [| | | | | | |g| |i|o]; try discriminate Ht;
      try (rewrite Ht in E; destruct (ui_pend _ _ _ I m E) as [A1 A2]; rewrite A1, (Hp m E); auto; fail).
    injection E as ->. destruct Hp as (_ & A1 & A2). rewrite A1. auto.
  - exact (ui_nodup2 _ _ _ I).
  - exact (ui_nodup3 _ _ _ I).
  - intros m Hm. rewrite in_app_iff. intros [X|[X|[]]]; [exact (ui_dealloc _ _ _ I m Hm X)|]. exact (Hd m X Hm).
  - intros id to h ies cb H. apply (tx_obs k l v Ht) in H. exact (ui_tx _ _ _ I _ _ _ _ _ H).
  - intros id H. destruct (ui_tx2 _ _ _ I id H) as (to & h & ies & cb & X). exists to, h, ies, cb. apply (tx_obs k l v Ht). exact X.
  - rewrite (ui_rx _ _ _ I). symmetry. apply cnt_upd; [exact (msgs_nodup _ _ _ I)|rewrite Ex; exact (in_msgs _ _ _ _ _ I Hin)|exact Hnx].
  - rewrite (ui_txc _ _ _ I). symmetry. apply cnt_upd; [exact (msgs_nodup _ _ _ I)|rewrite Ex; exact (in_msgs _ _ _ _ _ I Hin)|exact Hnx].
Qed.
(* a step that changes no message *)
Lemma uinv_same k l v u : uinv k l u -> tx_id v = None -> allocated (l ++ [v]) = allocated l -> (forall m, relv (gave None l) m v = false) ->
  (forall m, is_set_ctx m v = true -> In m (map fst (allocated l)) /\ find (is_set_ctx m) l <> None) -> (forall m, v <> VGive m) -> (forall m, v <> VDealloc m) ->
  uinv k (l ++ [v]) u.
Proof.
  intros I Ht Ha Hr Hc Hg Hd.
  assert (Gv : gave None (l ++ [v]) = gave None l) by (rewrite gave_snoc, Ht, app_nil_r; reflexivity).
  assert (Pv : pend None (l ++ [v]) = pend None l) by (rewrite pend_snoc, Ht; destruct v; try reflexivity; destruct (Hg m); reflexivity).
  assert (Rv : forall m, released (l ++ [v]) m = released l m) by (intros m; rewrite (released_snoc v l m Ht), Hr, orb_false_r; reflexivity).
  assert (Cv : forall m, find (is_set_ctx m) (l ++ [v]) = find (is_set_ctx m) l).
  { intros m. rewrite find_snoc. destruct (find (is_set_ctx m) l) eqn:E; [reflexivity|]. destruct (is_set_ctx m v) eqn:Em; [|reflexivity]. destruct (Hc m Em). congruence. }
  destruct I as [I1 I2 I3 I4 I5 I6 I7 I8 I9 I10 I11]. constructor; rewrite ?Gv, ?Pv, ?Ha; auto.
  - rewrite I1. f_equal. symmetry. apply this_msgs. intros m _. rewrite Rv, Cv, Gv, Pv. auto.
  - intros m Hm. rewrite Rv, Cv. auto.
  - intros m Hm. rewrite Rv. auto.
  - intros m Hm. rewrite in_app_iff. intros [X|[X|[]]]; [exact (I7 m Hm X)|exact (Hd m X)].
  - intros id to h ies cb H. apply (tx_obs k l v Ht) in H. eauto.
  - intros id H. destruct (I9 id H) as (to & h & ies & cb & X). exists to, h, ies, cb. apply (tx_obs k l v Ht). exact X.
Qed.

Lemma nodup_snoc {A} (x : A) a : NoDup a -> ~ In x a -> NoDup (a ++ [x]).
Proof. intros H N. apply NoDup_rev in H. assert (X : NoDup (rev (x :: rev a))) by (apply NoDup_rev; constructor; [rewrite <- in_rev; exact N|exact H]). cbn [rev] in X. rewrite rev_involutive in X. exact X. Qed.

Section UC.
Variables (c : ep_cfg) (k : peer_cfg) (s : ep) (l : list pentry).
Hypothesis (R : reachable c s) (EL : ep_obs k l = rev (e_trace s)).

Lemma tx_fresh l1 v l2 id to h ies cb : l = l1 ++ v :: l2 -> ep_obs k [v] = [OTx id to h ies cb] ->
  ~ In (VEp (OFree id)) l1 /\ forall to' h' ies' cb', ~ In (OTx id to' h' ies' cb') (ep_obs k l1).
Proof.
  intros E V. pose proof (tx_once c s R _ _ _ _ _ _ id (log_split k s l EL l1 v l2 _ E V)) as C.
  assert (X : forall to' h' ies' cb', ~ In (OTx id to' h' ies' cb') (ep_obs k l1)).
  { intros to' h' ies' cb' H. assert (Y : existsb (is_tx id) (rev (ep_obs k l2) ++ rev (ep_obs k l1)) = true); [|congruence].
    apply existsb_exists. exists (OTx id to' h' ies' cb'). split; [|apply N.eqb_refl]. rewrite in_app_iff, <- !in_rev. auto. }
  split; [|exact X]. intros H. apply in_split in H. destruct H as (a & b & Ea).
  destruct (own_tr c k s l R EL l1 id _ (OFree id) E) with (a := a) (b := b) as (to1 & h1 & ies1 & cb1 & H); [rewrite Ea; apply in_elt|apply N.eqb_refl|reflexivity|exact Ea|].
  eapply X. rewrite Ea, ep_obs_app, in_app_iff. left. exact H.
Qed.
Lemma free_new l1 id l2 : l = l1 ++ VEp (OFree id) :: l2 -> ~ In (VEp (OFree id)) l1 /\ exists to h ies cb, In (OTx id to h ies cb) (ep_obs k l1).
Proof.
  intros E. pose proof (log_split k s l EL l1 (VEp (OFree id)) l2 _ E eq_refl) as T. split.
  - intros H. pose proof (freed_at_most_once c s id R) as C. rewrite T, count_app, count_cons in C. cbn [is_free] in C. rewrite N.eqb_refl in C.
    assert (C1 : count (is_free id) (rev (ep_obs k l1)) <> 0); [|lia].
    apply (ep_obs_in k) in H. rewrite in_rev in H. apply in_split in H. destruct H as (a & b & ->). rewrite count_app, count_cons. cbn [is_free]. rewrite N.eqb_refl. lia.
  - destruct (tx_first c s R _ _ _ id T (N.eqb_refl id) eq_refl) as (to & h & ies & cb & H). exists to, h, ies, cb. rewrite in_rev. exact H.
Qed.

Definition good (l1 : list pentry) (r : pres ucount) : Prop := match r with POk u' => uinv k l1 u' | PNo => True | PUB _ => False end.

Lemma uinv_alloc l1 u m rx : uinv k l1 u -> ~ In m (map fst (allocated l1)) -> uinv k (l1 ++ [VAlloc m rx]) (mkUcount (u_rx u) (u_tx u) (mkUmsg m rx CtxNone OwApp :: u_msgs u)).
Proof.
  intros [I1 I2 I3 I4 I5 I6 I7 I8 I9 I10 I11] Hm.
  assert (Gv : gave None (l1 ++ [VAlloc m rx]) = gave None l1) by (rewrite gave_snoc; apply app_nil_r).
  assert (Pv : pend None (l1 ++ [VAlloc m rx]) = pend None l1) by (rewrite pend_snoc; reflexivity).
  assert (Rv : forall i, released (l1 ++ [VAlloc m rx]) i = released l1 i) by (intros i; rewrite released_snoc by reflexivity; apply orb_false_r).
  assert (Cv : forall i, find (is_set_ctx i) (l1 ++ [VAlloc m rx]) = find (is_set_ctx i) l1) by (intros i; apply ctx_neutral; reflexivity).
  assert (EA : allocated (l1 ++ [VAlloc m rx]) = allocated l1 ++ [(m, rx)]) by apply alloc_snoc.
  destruct (I3 m Hm) as (M1 & M2 & M3 & M4).
  constructor; rewrite ?Gv, ?Pv, ?EA; cbn [u_rx u_tx u_msgs]; auto.
  - rewrite map_app, rev_app_distr. cbn [map rev app]. f_equal.
    + unfold umsg_of, ctx_of, own_of. cbn [fst snd]. rewrite Rv, Cv, M1, M2, Gv, Pv. apply find_fst_none in M4. rewrite M4. destruct (pend None l1) as [i|]; [|reflexivity]. cbn.
      destruct (N.eqb_spec i m); [congruence|reflexivity].
    + rewrite I1. f_equal. symmetry. apply this_msgs. intros i _. rewrite Rv, Cv, Gv, Pv. auto.
  - rewrite map_app. cbn [map fst]. apply nodup_snoc; assumption.
  - intros i Hi. rewrite Rv, Cv. apply I3. intros X. apply Hi. rewrite map_app, in_app_iff. auto.
  - intros i Hi. rewrite Rv. auto.
  - intros i Hi. rewrite in_app_iff. intros [X|[X|[]]]; [exact (I7 i Hi X)|discriminate].
  - intros id to h ies cb H. apply (tx_obs k l1 (VAlloc m rx) eq_refl) in H. eauto.
  - intros id H. destruct (I9 id H) as (to & h & ies & cb & X). exists to, h, ies, cb. apply (tx_obs k l1 (VAlloc m rx) eq_refl). exact X.
  - rewrite cntf_cons. replace (this true (mkUmsg m rx CtxNone OwApp)) with false by (destruct rx; reflexivity). cbn [b2z]. lia.
  - rewrite cntf_cons. replace (this false (mkUmsg m rx CtxNone OwApp)) with false by (destruct rx; reflexivity). cbn [b2z]. lia.
Qed.

(* osmo_pfcp_endpoint_tx() *)
Lemma uinv_tx l1 v l2 u id to h ies cb : l = l1 ++ v :: l2 -> ep_obs k [v] = [OTx id to h ies cb] -> tx_id v = Some id -> (forall m, is_set_ctx m v = false) -> (forall m, v <> VDealloc m) ->
  uinv k l1 u -> good (l1 ++ [v]) (u_tx_start id u).
Proof.
  intros E V Ht Hc Hd I. destruct (tx_fresh l1 v l2 id to h ies cb E V) as [F1 F2]. unfold u_tx_start. destruct (find u_given (u_msgs u)) as [x|] eqn:Ef; [|exact Logic.I]. cbn [good].
  apply find_some in Ef. destruct Ef as [Hx Hg]. rewrite (ui_msgs _ _ _ I), <- in_rev, in_map_iff in Hx. destruct Hx as ([m rx] & <- & Hin).
  unfold u_given in Hg. cbn [umsg_of um_own fst snd] in Hg. unfold own_of in Hg. destruct (released l1 m) eqn:Er; [discriminate|]. destruct (find _ (gave None l1)) eqn:Eg; [discriminate|].
  destruct (opt_is (pend None l1) m) eqn:Ep; [clear Hg|discriminate]. apply find_fst_none in Eg as Eg'.
  destruct (pend None l1) as [m0|] eqn:Ep'; [|discriminate]. cbn in Ep. apply N.eqb_eq in Ep. subst m0.
  assert (Gv : gave None (l1 ++ [v]) = gave None l1 ++ [(m, id)]) by (rewrite gave_snoc, Ht, Ep'; reflexivity).
  assert (Pv : pend None (l1 ++ [v]) = None) by (rewrite pend_snoc, Ht; destruct v; try discriminate; reflexivity).
  assert (Av : allocated (l1 ++ [v]) = allocated l1) by (rewrite alloc_snoc; destruct v; try discriminate; apply app_nil_r).
  assert (Rv : forall i, released (l1 ++ [v]) i = released l1 i) by (intros i; exact (released_tx v l1 id m i Ht Ep' F1)).
  assert (Cv : forall i, find (is_set_ctx i) (l1 ++ [v]) = find (is_set_ctx i) l1) by (intros i; apply ctx_neutral, Hc).
  pose proof I as J. destruct J as [I1 I2 I3 I4 I5 I6 I7 I8 I9 I10 I11]. cbn [umsg_of um_nr um_rx um_ctx fst snd].
  assert (Ey : mkUmsg m rx (ctx_of l1 m) (OwEp id) = umsg_of (l1 ++ [v]) (m, rx)).
  { unfold umsg_of, ctx_of, own_of. cbn [fst snd]. rewrite Rv, Cv, Er, Gv. rewrite find_snoc, Eg. cbn. rewrite N.eqb_refl. reflexivity. }
  constructor; rewrite ?Gv, ?Pv, ?Av; cbn [u_rx u_tx u_msgs u_upd]; auto.
  - rewrite I1. eapply (upd_msgs l1 (l1 ++ [v]) _ (mkUmsg m rx (ctx_of l1 m) (OwEp id)) rx); [exact I2|exact Hin|exact Ey|]. cbn [um_nr]. intros i Hi. rewrite Rv, Cv, Gv, Pv, Ep'. repeat split.
    + rewrite find_snoc. cbn [fst]. destruct (N.eqb_spec m i); [congruence|]. destruct (find (fun g : N * N => fst g =? i) (gave None l1)); reflexivity.
    + cbn. symmetry. apply N.eqb_neq. congruence.
  - intros i Hi. rewrite Rv, Cv. destruct (I3 i Hi) as (A1 & A2 & A3 & A4). repeat split; auto; [discriminate|]. rewrite map_app, in_app_iff. intros [X|[X|[]]]; [exact (A4 X)|].
    cbn in X. subst i. apply A3. exact Ep'.
  - discriminate.
  - rewrite map_app. apply nodup_snoc; assumption.
  - rewrite map_app. apply nodup_snoc; [assumption|]. cbn [snd]. intros X. destruct (I9 id X) as (to' & h' & ies' & cb' & Y). exact (F2 _ _ _ _ Y).
  - intros i Hi. rewrite in_app_iff. intros [X|[X|[]]]; [|exact (Hd i X)]. rewrite map_app, in_app_iff in Hi. destruct Hi as [Hi|[Hi|[]]]; [exact (I7 i Hi X)|]. cbn in Hi. subst i.
    assert (Y : released l1 m = true); [|congruence]. rewrite released_eq. apply existsb_exists. exists (VDealloc m). split; [exact X|apply N.eqb_refl].
  - intros i to' h' ies' cb' H. rewrite ep_obs_app, in_app_iff, V in H. rewrite map_app, in_app_iff. destruct H as [H|[H|[]]]; [left; eauto|]. injection H as ->. right. left. reflexivity.
  - intros i H. rewrite map_app, in_app_iff in H. rewrite ep_obs_app, V. destruct H as [H|[H|[]]].
    + destruct (I9 i H) as (to' & h' & ies' & cb' & Y). exists to', h', ies', cb'. rewrite in_app_iff. auto.
    + cbn in H. subst i. exists to, h, ies, cb. apply in_elt.
  - rewrite I10. pose proof (cnt_upd (this true) (mkUmsg m rx (ctx_of l1 m) (OwEp id)) (umsg_of l1 (m, rx)) (u_msgs u) (msgs_nodup _ _ _ I) (in_msgs _ _ _ _ _ I Hin) eq_refl) as X. cbn [um_nr] in X.
    unfold u_upd. cbn [u_msgs um_nr]. etransitivity; [|symmetry; exact X]. unfold this at 3, umsg_of. cbn [um_rx um_ctx fst snd]. unfold this at 3. cbn [um_rx um_ctx]. lia.
  - rewrite I11. pose proof (cnt_upd (this false) (mkUmsg m rx (ctx_of l1 m) (OwEp id)) (umsg_of l1 (m, rx)) (u_msgs u) (msgs_nodup _ _ _ I) (in_msgs _ _ _ _ _ I Hin) eq_refl) as X. cbn [um_nr] in X.
    unfold u_upd. cbn [u_msgs um_nr]. etransitivity; [|symmetry; exact X]. unfold this at 3, umsg_of. cbn [um_rx um_ctx fst snd]. unfold this at 3. cbn [um_rx um_ctx]. lia.
Qed.
(* osmo_pfcp_msg_free() *)
Lemma uinv_destruct l1 v l2 u m rx : l = l1 ++ v :: l2 -> tx_id v = None -> allocated (l1 ++ [v]) = allocated l1 -> (forall i, is_set_ctx i v = false) -> (forall i, v <> VGive i) ->
  uinv k l1 u -> In (m, rx) (allocated l1) -> released l1 m = false -> (forall i, relv (gave None l1) i v = (i =? m)) -> pend None l1 <> Some m ->
  (v = VDealloc m -> ~ In m (map fst (gave None l1))) ->
  good (l1 ++ [v]) (destruct_msg (umsg_of l1 (m, rx)) u).
Proof.
  intros E Ht Ha Hc Hg I Hin Er Hr Hp Hd.
  assert (Ey : mkUmsg m rx CtxNone OwFreed = umsg_of (l1 ++ [v]) (m, rx)).
  { unfold umsg_of, ctx_of, own_of. cbn [fst snd]. rewrite (released_snoc v l1 m Ht), Hr, N.eqb_refl, orb_true_r. reflexivity. }
  assert (S : forall nrx ntx, nrx = (u_rx u - b2z (this true (umsg_of l1 (m, rx))))%Z -> ntx = (u_tx u - b2z (this false (umsg_of l1 (m, rx))))%Z ->
    uinv k (l1 ++ [v]) (mkUcount nrx ntx (u_msgs (u_upd (mkUmsg m rx CtxNone OwFreed) u)))).
  { intros nrx ntx E1 E2. eapply (uinv_upd k l1 v u (umsg_of l1 (m, rx)) (mkUmsg m rx CtxNone OwFreed) rx); try eassumption; try reflexivity; cbn [um_nr].
    - intros i Hi. rewrite Hr, Hc. apply N.eqb_neq in Hi. rewrite Hi. auto.
    - destruct v; try exact Logic.I. destruct (Hg m0); reflexivity.
    - destruct v; try (intros i Hi; rewrite Hr; apply N.eqb_neq; congruence). destruct (Hg m0); reflexivity.
    - intros i Hi. assert (i = m) by (specialize (Hr i); rewrite Hi in Hr; cbn in Hr; rewrite N.eqb_refl in Hr; symmetry in Hr; apply N.eqb_eq in Hr; exact Hr). subst i. exact (Hd Hi).
    - rewrite E1. replace (this true (mkUmsg m rx CtxNone OwFreed)) with false by (destruct rx; reflexivity). cbn [b2z]. lia.
    - rewrite E2. replace (this false (mkUmsg m rx CtxNone OwFreed)) with false by (destruct rx; reflexivity). cbn [b2z]. lia. }
  unfold destruct_msg. cbn [umsg_of um_nr um_rx um_ctx fst snd]. destruct (ctx_of l1 m) eqn:Ec.
  - cbn [good]. replace (u_upd _ u) with (mkUcount (u_rx u) (u_tx u) (u_msgs (u_upd (mkUmsg m rx CtxNone OwFreed) u))) by reflexivity. apply S; unfold this, umsg_of; cbn [um_rx um_ctx fst snd]; rewrite Ec, andb_false_r; cbn; lia.
  - assert (HI : In (umsg_of l1 (m, rx)) (u_msgs u)) by exact (in_msgs _ _ _ _ _ I Hin).
    assert (Hthis : this rx (umsg_of l1 (m, rx)) = true) by (unfold this, umsg_of; cbn [um_rx um_ctx fst snd]; rewrite Ec; destruct rx; reflexivity).
    assert (Hthat : this (negb rx) (umsg_of l1 (m, rx)) = false) by (unfold this, umsg_of; cbn [um_rx um_ctx fst snd]; destruct rx; reflexivity).
    pose proof (cnt_pos _ _ _ HI Hthis) as P. unfold get_put. cbn [u_rx u_tx u_upd u_msgs].
    pose proof (ui_rx _ _ _ I). pose proof (ui_txc _ _ _ I). destruct rx; cbn [negb] in Hthat.
    + destruct (Z.ltb_spec (u_rx u + -1) 0) as [C|C]; [lia|]. cbn [good]. apply S; rewrite ?Hthis, ?Hthat; cbn; lia.
    + destruct (Z.ltb_spec (u_tx u + -1) 0) as [C|C]; [lia|]. cbn [good]. apply S; rewrite ?Hthis, ?Hthat; cbn; lia.
  - cbn [good]. replace (u_upd _ u) with (mkUcount (u_rx u) (u_tx u) (u_msgs (u_upd (mkUmsg m rx CtxNone OwFreed) u))) by reflexivity. apply S; unfold this, umsg_of; cbn [um_rx um_ctx fst snd]; rewrite Ec, andb_false_r; cbn; lia.
Qed.
Lemma opt_is_neq o m : opt_is o m = false -> o <> Some m.
Proof. intros H ->. cbn in H. rewrite N.eqb_refl in H. discriminate. Qed.

Lemma uinv_step l1 v l2 u : l = l1 ++ v :: l2 -> v <> VInvalidate -> uinv k l1 u -> good (l1 ++ [v]) (u_step u v).
Proof.
  intros E NI I. assert (Same : tx_id v = None -> allocated (l1 ++ [v]) = allocated l1 -> (forall m, relv (gave None l1) m v = false) -> (forall m, is_set_ctx m v = false) ->
    (forall m, v <> VGive m) -> (forall m, v <> VDealloc m) -> good (l1 ++ [v]) (POk u)).
  { intros A1 A2 A3 A4 A5 A6. apply uinv_same; auto. intros m Hm. rewrite A4 in Hm. discriminate. }
  assert (Al : (forall m rx, v <> VAlloc m rx) -> allocated (l1 ++ [v]) = allocated l1) by (intros X; rewrite alloc_snoc; destruct v; try apply app_nil_r; destruct (X m rx); reflexivity).
  destruct v as [|b| | |m rx|m|m|m|m|id|o]; cbn [u_step]; try (apply Same; try reflexivity; try discriminate; apply Al; discriminate).
  - destruct NI; reflexivity.
  - (* VAlloc *) pose proof (u_find_iff k l1 u m I) as F. destruct (u_find m u); [exact Logic.I|]. cbn [good]. apply uinv_alloc; assumption.
  - (* VSetCtx *) pose proof (u_find_iff k l1 u m I) as F. destruct (u_find m u) as [x|]; [|exact Logic.I]. destruct F as (rx & Hin & Ex).
    destruct x as [m' rx' cx ow]. unfold umsg_of in Ex. cbn [fst snd] in Ex. injection Ex as -> -> Ec Eo.
    assert (Already : ow = OwApp -> cx <> CtxNone -> uinv k (l1 ++ [VSetCtx m]) u).
    { intros X Y. subst ow. destruct (own_app l1 m X) as (A1 & _). apply uinv_same; try reflexivity; try discriminate; try (apply Al; discriminate); auto. intros i Hi. cbn in Hi. apply N.eqb_eq in Hi. subst i.
      split; [apply (in_map fst) in Hin; exact Hin|]. intros C. apply Y. rewrite Ec. unfold ctx_of. rewrite A1, C. reflexivity. }
    destruct ow; try (destruct cx; exact Logic.I). destruct cx; try (cbn [good]; apply Already; [reflexivity|discriminate]). clear Already.
    destruct (own_app l1 m (eq_sym Eo)) as (A1 & A2 & A3). assert (Hf : find (is_set_ctx m) l1 = None).
    { unfold ctx_of in Ec. rewrite A1 in Ec. destruct (find _ l1) as [[]|]; try discriminate; reflexivity. }
    assert (S : forall nrx ntx, nrx = (u_rx u + b2z (Bool.eqb rx true))%Z -> ntx = (u_tx u + b2z (Bool.eqb rx false))%Z ->
      uinv k (l1 ++ [VSetCtx m]) (mkUcount nrx ntx (u_msgs (u_upd (mkUmsg m rx CtxThis OwApp) u)))).
    { intros nrx ntx E1 E2. eapply (uinv_upd k l1 _ u (umsg_of l1 (m, rx)) (mkUmsg m rx CtxThis OwApp) rx); try exact I; try exact Hin; try reflexivity; try discriminate; cbn [um_nr]; try (apply Al; discriminate); auto.
      - unfold umsg_of, ctx_of, own_of. cbn [fst snd]. rewrite released_snoc by reflexivity. rewrite A1. cbn [relv orb]. rewrite find_snoc, Hf. cbn [is_set_ctx]. rewrite N.eqb_refl.
        rewrite gave_snoc. cbn [tx_id]. rewrite app_nil_r, A2, pend_snoc. cbn [tx_id]. rewrite A3. reflexivity.
      - intros i Hi. repeat split; [|discriminate]. cbn. apply N.eqb_neq. congruence.
      - rewrite E1. unfold this, umsg_of. cbn [um_rx um_ctx fst snd]. rewrite <- Ec, andb_false_r, andb_true_r. cbn [b2z]. lia.
      - rewrite E2. unfold this, umsg_of. cbn [um_rx um_ctx fst snd]. rewrite <- Ec, andb_false_r, andb_true_r. cbn [b2z]. lia. }
    pose proof (cnt_nonneg (this true) (u_msgs u)) as P1. pose proof (cnt_nonneg (this false) (u_msgs u)) as P2. rewrite <- (ui_rx _ _ _ I) in P1. rewrite <- (ui_txc _ _ _ I) in P2.
    unfold get_put. cbn [u_rx u_tx u_upd u_msgs]. destruct rx.
    + destruct (Z.ltb_spec (u_rx u + 1) 0); [lia|]. cbn [good]. apply S; cbn; lia.
    + destruct (Z.ltb_spec (u_tx u + 1) 0); [lia|]. cbn [good]. apply S; cbn; lia.
  - (* VSetCtxOther *) pose proof (u_find_iff k l1 u m I) as F. destruct (u_find m u) as [x|]; [|exact Logic.I]. destruct F as (rx & Hin & Ex).
    destruct x as [m' rx' cx ow]. unfold umsg_of in Ex. cbn [fst snd] in Ex. injection Ex as -> -> Ec Eo.
    assert (Already : ow = OwApp -> cx <> CtxNone -> uinv k (l1 ++ [VSetCtxOther m]) u).
    { intros X Y. subst ow. destruct (own_app l1 m X) as (A1 & _). apply uinv_same; try reflexivity; try discriminate; try (apply Al; discriminate); auto. intros i Hi. cbn in Hi. apply N.eqb_eq in Hi. subst i.
      split; [apply (in_map fst) in Hin; exact Hin|]. intros C. apply Y. rewrite Ec. unfold ctx_of. rewrite A1, C. reflexivity. }
    destruct ow; try (destruct cx; exact Logic.I). destruct cx; try (cbn [good]; apply Already; [reflexivity|discriminate]). clear Already.
    destruct (own_app l1 m (eq_sym Eo)) as (A1 & A2 & A3). assert (Hf : find (is_set_ctx m) l1 = None).
    { unfold ctx_of in Ec. rewrite A1 in Ec. destruct (find _ l1) as [[]|]; try discriminate; reflexivity. }
    cbn [good]. replace (u_upd _ u) with (mkUcount (u_rx u) (u_tx u) (u_msgs (u_upd (mkUmsg m rx CtxOther OwApp) u))) by reflexivity.
    eapply (uinv_upd k l1 _ u (umsg_of l1 (m, rx)) (mkUmsg m rx CtxOther OwApp) rx); try exact I; try exact Hin; try reflexivity; try discriminate; cbn [um_nr]; try (apply Al; discriminate); auto.
    + unfold umsg_of, ctx_of, own_of. cbn [fst snd]. rewrite released_snoc by reflexivity. rewrite A1. cbn [relv orb]. rewrite find_snoc, Hf. cbn [is_set_ctx]. rewrite N.eqb_refl.
      rewrite gave_snoc. cbn [tx_id]. rewrite app_nil_r, A2, pend_snoc. cbn [tx_id]. rewrite A3. reflexivity.
    + intros i Hi. repeat split; [|discriminate]. cbn. apply N.eqb_neq. congruence.
    + unfold this, umsg_of. cbn [um_rx um_ctx fst snd]. rewrite <- Ec, !andb_false_r. cbn [b2z]. lia.
    + unfold this, umsg_of. cbn [um_rx um_ctx fst snd]. rewrite <- Ec, !andb_false_r. cbn [b2z]. lia.
  - (* VGive *) destruct (existsb u_given (u_msgs u)) eqn:Eg; [exact Logic.I|].
    pose proof (u_find_iff k l1 u m I) as F. destruct (u_find m u) as [x|]; [|exact Logic.I]. destruct F as (rx & Hin & Ex).
    destruct x as [m' rx' cx ow]. unfold umsg_of in Ex. cbn [fst snd] in Ex. injection Ex as -> -> Ec Eo. destruct ow; try exact Logic.I.
    destruct (own_app l1 m (eq_sym Eo)) as (A1 & A2 & A3). apply find_fst_none in A2 as A2'.
    assert (Pn : pend None l1 = None).
    { destruct (pend None l1) as [m0|] eqn:Ep; [exfalso|reflexivity]. destruct (ui_pend _ _ _ I m0 Ep) as [B1 B2].
      destruct (alloc_dec l1 m0) as [B3|B3]; [|destruct (ui_unalloc _ _ _ I m0 B3) as (_ & _ & X & _); contradiction].
      apply in_map_iff in B3. destruct B3 as ([m1 rx0] & <- & B3). cbn [fst] in *. pose proof (in_msgs _ _ _ _ _ I B3) as B4.
      assert (B5 : existsb u_given (u_msgs u) = true); [|congruence]. apply existsb_exists. exists (umsg_of l1 (m1, rx0)). split; [exact B4|].
      unfold u_given. rewrite umsg_own. unfold own_of. apply find_fst_none in B2. rewrite B1, B2, Ep. cbn. rewrite N.eqb_refl. reflexivity. }
    cbn [good]. replace (u_upd _ u) with (mkUcount (u_rx u) (u_tx u) (u_msgs (u_upd (mkUmsg m rx cx OwGiven) u))) by reflexivity.
    eapply (uinv_upd k l1 _ u (umsg_of l1 (m, rx)) (mkUmsg m rx cx OwGiven) rx); try exact I; try exact Hin; try reflexivity; try discriminate; cbn [um_nr]; try (apply Al; discriminate); auto.
    + unfold umsg_of, ctx_of, own_of. cbn [fst snd]. rewrite released_snoc by reflexivity. rewrite A1. cbn [relv orb]. rewrite (ctx_neutral m (VGive m) eq_refl).
      rewrite gave_snoc. cbn [tx_id]. rewrite app_nil_r, A2, pend_snoc. cbn [opt_is]. rewrite N.eqb_refl. rewrite Ec. unfold ctx_of. rewrite A1. reflexivity.
    + intros i Hi. repeat split. congruence.
    + rewrite Ec. unfold this, umsg_of. cbn [um_rx um_ctx fst snd]. lia.
    + rewrite Ec. unfold this, umsg_of. cbn [um_rx um_ctx fst snd]. lia.
  - (* VDealloc *) pose proof (u_find_iff k l1 u m I) as F. destruct (u_find m u) as [x|]; [|exact Logic.I]. destruct F as (rx & Hin & Ex).
    destruct x as [m' rx' cx ow]. pose proof Ex as Ex'. unfold umsg_of in Ex'. cbn [fst snd] in Ex'. injection Ex' as -> -> Ec Eo. destruct ow; try exact Logic.I.
    rewrite Ex. destruct (own_app l1 m (eq_sym Eo)) as (A1 & A2 & A3). apply find_fst_none in A2. apply (uinv_destruct l1 _ l2); try exact E; try reflexivity; try discriminate; auto.
    + apply Al. discriminate.
    + intros i. cbn. apply N.eqb_sym.
    + apply opt_is_neq. exact A3.
  - (* VOwnTx *) eapply uinv_tx; try exact E; try reflexivity; try discriminate; exact I.
  - (* VEp *) destruct o; try (apply Same; try reflexivity; try discriminate; apply Al; discriminate).
    + eapply uinv_tx; try exact E; try reflexivity; try discriminate; exact I.
    + destruct (free_new l1 id l2 E) as [F1 (to & h & ies & cb & F2)]. apply (ui_tx _ _ _ I) in F2. apply in_map_iff in F2. destruct F2 as ([m id'] & Eid & Hg). cbn in Eid. subst id'.
      assert (Ha : In m (map fst (allocated l1))) by (eapply ui_gave_alloc; [exact I|apply (in_map fst) in Hg; exact Hg]). apply in_map_iff in Ha. destruct Ha as ([m1 rx] & Em & Hin). cbn in Em. subst m1.
      assert (Er : released l1 m = false).
      { destruct (released l1 m) eqn:Er; [exfalso|reflexivity]. rewrite released_eq in Er. apply existsb_exists in Er. destruct Er as (w & W1 & W2).
        destruct w as [| | | | | | | |i| |[]]; try discriminate; cbn in W2.
        - apply N.eqb_eq in W2. subst i. apply (ui_dealloc _ _ _ I m); [apply (in_map fst) in Hg; exact Hg|exact W1].
        - apply existsb_exists in W2. destruct W2 as ([m1 i1] & W2 & W3). apply andb_true_iff in W3. destruct W3 as [W3 W4]. apply N.eqb_eq in W3, W4. cbn in W3, W4. subst m1 i1.
          rewrite (nodup_fst _ m id id0 (ui_nodup2 _ _ _ I) Hg W2) in F1. contradiction. }
      assert (Hat : u_at_ep id (umsg_of l1 (m, rx)) = true).
      { unfold u_at_ep. rewrite umsg_own. unfold own_of. rewrite Er, (gave_find _ _ _ _ _ I Hg). cbn. apply N.eqb_refl. }
      destruct (find (u_at_ep id) (u_msgs u)) as [x|] eqn:Ef.
      2:{ pose proof (find_none _ _ Ef _ (in_msgs _ _ _ _ _ I Hin)) as X. congruence. }
      assert (Ex : x = umsg_of l1 (m, rx)).
      { apply find_some in Ef. destruct Ef as [X1 X2]. rewrite (ui_msgs _ _ _ I), <- in_rev, in_map_iff in X1. destruct X1 as ([m1 rx1] & <- & X1).
        unfold u_at_ep in X2. rewrite umsg_own in X2. unfold own_of in X2. destruct (released l1 m1); [discriminate|]. destruct (find _ (gave None l1)) as [[m2 i2]|] eqn:Eg; [|destruct (opt_is _ m1); discriminate].
        apply find_some in Eg. destruct Eg as [Eg1 Eg2]. apply N.eqb_eq in X2, Eg2. cbn in X2, Eg2. subst m2 i2.
        assert (m1 = m) by exact (nodup_snd _ id m1 m (ui_nodup3 _ _ _ I) Eg1 Hg). subst m1. rewrite (nodup_fst _ m rx1 rx (ui_nodup _ _ _ I) X1 Hin). reflexivity. }
      rewrite Ex. apply (uinv_destruct l1 _ l2); try exact E; try reflexivity; try discriminate; auto.
      * apply Al. discriminate.
      * intros i. cbn. destruct (N.eqb_spec i m) as [->|Ni].
        -- apply existsb_exists. exists (m, id). split; [exact Hg|]. cbn. rewrite !N.eqb_refl. reflexivity.
        -- destruct (existsb _ (gave None l1)) eqn:Ex1; [|reflexivity]. apply existsb_exists in Ex1. destruct Ex1 as ([m1 i1] & W2 & W3). apply andb_true_iff in W3. destruct W3 as [W3 W4].
           apply N.eqb_eq in W3, W4. cbn in W3, W4. subst m1 i1. destruct Ni. exact (nodup_snd _ id i m (ui_nodup3 _ _ _ I) W2 Hg).
      * intros Hp. destruct (ui_pend _ _ _ I m Hp) as [_ X]. apply X. apply (in_map fst) in Hg. exact Hg.
Qed.
Lemma uinv0 : uinv k [] ucount0.
Proof. constructor; try reflexivity; cbn; try (constructor; fail); try tauto; try discriminate. intros m _. repeat split; auto; discriminate. Qed.
Lemma u_run_app a : forall u b, u_run u (a ++ b) = match u_run u a with POk u' => u_run u' b | PNo => PNo | PUB e => PUB e end.
Proof. induction a as [|v a IH]; intros u b; [reflexivity|]. cbn [app u_run]. destruct (u_step u v); [apply IH|reflexivity|reflexivity]. Qed.
Lemma uinv_run : ~ In VInvalidate l -> forall l1 l2, l = l1 ++ l2 -> good l1 (u_run ucount0 l1).
Proof.
  intros NI l1. induction l1 as [|v l1 IH] using rev_ind; intros l2 E; [exact uinv0|]. rewrite <- app_assoc in E. cbn [app] in E. specialize (IH _ E). rewrite u_run_app. destruct (u_run ucount0 l1) as [u| |e]; [|exact Logic.I|exact IH].
  cbn [u_run good] in *. pose proof (uinv_step l1 v l2 u E) as S. destruct (u_step u v); [apply S|exact Logic.I|apply S]; try exact IH; intros ->; apply NI; rewrite E; apply in_elt.
Qed.
Lemma holding_cnt rx : Z.of_N (holding rx l) = cntf (this rx) (rev (map (umsg_of l) (allocated l))).
Proof.
  unfold holding, cntf, lenN. rewrite N_nat_Z || rewrite nat_N_Z. f_equal.
  assert (X : forall f (A : list umsg), length (filter f (rev A)) = length (filter f A)).
  { intros f A. induction A as [|a A IH]; [reflexivity|]. cbn [rev filter]. rewrite filter_app, app_length, IH. cbn [filter]. destruct (f a); cbn [length]; lia. }
  rewrite X. clear X. induction (allocated l) as [|x A IH]; [reflexivity|]. cbn [filter map].
  assert (T : this rx (umsg_of l x) = Bool.eqb (snd x) rx && ctx_this l (fst x) && negb (released l (fst x))).
  { unfold this, umsg_of, ctx_of, ctx_this. cbn [um_rx um_ctx]. destruct (released l (fst x)); [rewrite !andb_false_r; reflexivity|]. rewrite andb_true_r. f_equal. destruct (find _ l) as [[]|]; reflexivity. }
  rewrite T. destruct (_ && _ && _); cbn [length]; rewrite IH; reflexivity.
Qed.
Theorem use_counts u : ~ In VInvalidate l -> u_run ucount0 l = POk u -> u_rx u = Z.of_N (holding true l) /\ u_tx u = Z.of_N (holding false l).
Proof.
  intros NI H. pose proof (uinv_run NI l [] (eq_sym (app_nil_r l))) as G. rewrite H in G. cbn [good] in G. rewrite !holding_cnt, <- (ui_msgs _ _ _ G). split; [exact (ui_rx _ _ _ G)|exact (ui_txc _ _ _ G)].
Qed.
Theorem use_no_abort e : ~ In VInvalidate l -> u_run ucount0 l <> PUB e.
Proof. intros NI H. pose proof (uinv_run NI l [] (eq_sym (app_nil_r l))) as G. rewrite H in G. exact G. Qed.

(* messages given to an endpoint that is then closed *)
Theorem use_all_released u : ~ In VInvalidate l -> u_run ucount0 l = POk u -> c_n1 c <> 0 -> c_t1 c <> 0 -> (exists s0, reachable c s0 /\ s = ep_close s0) ->
  (forall m rx, In (m, rx) (allocated l) -> In (VDealloc m) l \/ exists id, In (m, id) (gave None l)) -> u_rx u = 0%Z /\ u_tx u = 0%Z.
Proof.
  intros NI H Hn Ht (s0 & R0 & Es) Hall. destruct (use_counts u NI H) as [-> ->].
  pose proof (uinv_run NI l [] (eq_sym (app_nil_r l))) as G. rewrite H in G. cbn [good] in G.
  assert (Z : forall rx, holding rx l = 0); [|rewrite !Z; auto].
  assert (Rel : forall m rx, In (m, rx) (allocated l) -> released l m = true).
  { intros m rx Hm. rewrite released_eq. apply existsb_exists. destruct (Hall m rx Hm) as [X|(id & X)].
    - exists (VDealloc m). split; [exact X|apply N.eqb_refl].
    - destruct (ui_tx2 _ _ _ G id) as (to & h & ies & cb & Y); [apply (in_map snd) in X; exact X|].
      assert (T : In (OTx id to h ies cb) (e_trace s0)).
      { rewrite EL, <- in_rev, Es in Y. apply (in_tr_of id) in Y; [|apply N.eqb_refl]. destruct (close_final c s0 R0) as (_ & _ & C & _). rewrite C, in_app_iff in Y.
        destruct Y as [Y|Y]; [destruct (has_id _ _); [destruct Y as [Y|[]]; discriminate|destruct Y]|]. apply in_tr_of in Y; [exact Y|apply N.eqb_refl]. }
      pose proof (freed_after_close c s0 id to h ies cb R0 Hn Ht T) as C. rewrite <- Es in C.
      assert (Y1 : exists o, In o (filter (is_free id) (e_trace s))) by (unfold count in C; destruct (filter _ _) as [|o f]; [discriminate|exists o; left; reflexivity]).
      destruct Y1 as (o & Y1). apply filter_In in Y1. destruct Y1 as [Y1 Y2]. destruct o; try discriminate. apply N.eqb_eq in Y2. subst id0.
      rewrite in_rev, <- EL in Y1. apply ep_obs_back in Y1. destruct Y1 as [Y1|(? & _ & Y1)]; [|discriminate].
      exists (VEp (OFree id)). split; [exact Y1|]. cbn. apply existsb_exists. exists (m, id). split; [exact X|]. cbn. rewrite !N.eqb_refl. reflexivity. }
  intros rx. unfold holding. assert (F : filter (fun x : N * bool => Bool.eqb (snd x) rx && ctx_this l (fst x) && negb (released l (fst x))) (allocated l) = []).
  { revert Rel. generalize (allocated l) as A. induction A as [|[m b] A IH]; intros Rel; [reflexivity|]. cbn [filter fst snd]. rewrite (Rel m b (or_introl eq_refl)), andb_false_r.
    apply IH. intros m' b' X. apply (Rel m' b'). right. exact X. }
  rewrite F. reflexivity.
Qed.
End UC.
Theorem use_zero_after_close c k s l u : reachable c s -> ep_obs k l = rev (e_trace (ep_close s)) -> ~ In VInvalidate l -> u_run ucount0 l = POk u ->
  c_n1 c <> 0 -> c_t1 c <> 0 ->
  (forall m rx, In (m, rx) (allocated l) -> In (VDealloc m) l \/ exists id, In (m, id) (gave None l)) -> u_rx u = 0%Z /\ u_tx u = 0%Z.
Proof.
  intros R E NI H Hn Ht Hall. assert (R' : reachable c (ep_close s)) by (apply (reach_run c s [ECall CClose]); [exact R|reflexivity]).
  exact (use_all_released c k (ep_close s) l R' E u NI H Hn Ht (ex_intro _ s (conj R eq_refl)) Hall).
Qed.
