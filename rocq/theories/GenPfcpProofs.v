(* GenPfcpProofs.v -- the PFCP definitions are accepted by the generator and give the tables of TablesModel.v *)
From Coq Require Import String Ascii.
From Verif Require Import Base GtlvModel DecEncModel IesModel TablesModel MemModel MemSpec GenModel GenSpec GenProofs GenTabProofs GenCompile GenPfcp.
Local Open Scope string_scope.
Local Open Scope N_scope.

(* ---------------------------------------------------------------- equality of definitions, decided *)
Definition ostr_eqb (a b : option string) : bool := match a, b with Some x, Some y => String.eqb x y | None, None => true | _, _ => false end.
Lemma ostr_eqb_eq a b : ostr_eqb a b = true -> a = b.
Proof. destruct a, b; cbn; intros H; try discriminate; auto. apply String.eqb_eq in H. congruence. Qed.
Definition gmod_eqb (a b : gmod) : bool :=
  String.eqb (g_name a) (g_name b) && Bool.eqb (g_opt a) (g_opt b) && (g_multi a =? g_multi b) && (g_mmand a =? g_mmand b) && ostr_eqb (g_inst a) (g_inst b).
Definition gdef_eqb (a b : gdef) : bool :=
  (g_id a =? g_id b) && ostr_eqb (g_dtype a) (g_dtype b) && ostr_eqb (g_tag a) (g_tag b) && ostr_eqb (g_denc a) (g_denc b).
Lemma gmod_eqb_eq a b : gmod_eqb a b = true -> a = b.
Proof.
  destruct a, b. unfold gmod_eqb. cbn. rewrite !andb_true_iff. intros ((((H1 & H2) & H3) & H4) & H5).
  apply String.eqb_eq in H1. apply eqb_prop in H2. apply N.eqb_eq in H3. apply N.eqb_eq in H4. apply ostr_eqb_eq in H5. congruence.
Qed.
Lemma gdef_eqb_eq a b : gdef_eqb a b = true -> a = b.
Proof.
  destruct a, b. unfold gdef_eqb. cbn. rewrite !andb_true_iff. intros (((H1 & H2) & H3) & H4).
  apply N.eqb_eq in H1. apply ostr_eqb_eq in H2. apply ostr_eqb_eq in H3. apply ostr_eqb_eq in H4. congruence.
Qed.
Fixpoint gie_eqb (a b : gie) {struct a} : bool :=
  match a, b with
  | GIe m d n, GIe m' d' n' =>
    gmod_eqb m m' && gdef_eqb d d' &&
    match n, n' with
    | None, None => true
    | Some l, Some l' => (fix go (l l' : list gie) {struct l} := match l, l' with [], [] => true | x :: r, y :: r' => gie_eqb x y && go r r' | _, _ => false end) l l'
    | _, _ => false
    end
  end.
Definition gies_eqb : list gie -> list gie -> bool :=
  fix go (l l' : list gie) {struct l} := match l, l' with [], [] => true | x :: r, y :: r' => gie_eqb x y && go r r' | _, _ => false end.
Fixpoint gie_eqb_eq (a : gie) : forall b, gie_eqb a b = true -> a = b.
Proof.
  destruct a as [m d n]. intros [m' d' n']. cbn. rewrite !andb_true_iff. intros ((H1 & H2) & H3).
  apply gmod_eqb_eq in H1. apply gdef_eqb_eq in H2. destruct n as [l|], n' as [l'|]; try discriminate; [|congruence].
  assert (E : l = l').
  { clear - H3 gie_eqb_eq. revert l' H3. induction l as [|x r IH]; intros [|y r'] H3; try discriminate; auto.
    apply andb_true_iff in H3. destruct H3 as [H4 H5]. apply gie_eqb_eq in H4. apply IH in H5. congruence. }
  congruence.
Qed.
Definition gn_eqb (a b : option (list gie)) : bool := match a, b with None, None => true | Some l, Some l' => gies_eqb l l' | _, _ => false end.
Lemma gn_eqb_eq a b : gn_eqb a b = true -> a = b.
Proof.
  destruct a as [l|], b as [l'|]; cbn; intros H; try discriminate; auto.
  f_equal. revert l' H. induction l as [|x r IH]; intros [|y r'] H; try discriminate; auto.
  cbn in H. apply andb_true_iff in H. destruct H as [H4 H5]. apply gie_eqb_eq in H4. apply IH in H5. congruence.
Qed.

Fixpoint nodup_b (l : list string) : bool := match l with [] => true | x :: r => negb (existsb (String.eqb x) r) && nodup_b r end.
Lemma nodup_b_ok l : nodup_b l = true -> NoDup l.
Proof.
  induction l as [|x r IH]; intros H; constructor; cbn in H; apply andb_true_iff in H; destruct H as [H1 H2]; [|auto].
  intros Hi. rewrite negb_true_iff in H1. assert (E : existsb (String.eqb x) r = true); [|congruence].
  apply existsb_exists. exists x. split; [exact Hi|apply String.eqb_refl].
Qed.
Definition in_b (x : string) (l : list string) : bool := existsb (String.eqb x) l.
Lemma in_b_ok x l : in_b x l = true -> In x l.
Proof. intros H. apply existsb_exists in H. destruct H as (y & H1 & H2). apply String.eqb_eq in H2. congruence. Qed.

(* the distinct definitions: all_ies has each many times *)
Definition pfcp_groups : list gie := filter (fun i => match gn i with Some _ => true | None => false end) (all_ies pfcp_msgs).
Lemma pairs_ok {A} (f : A -> A -> bool) l : forallb (fun x => forallb (f x) l) l = true -> forall x y, In x l -> In y l -> f x y = true.
Proof. intros H x y Hx Hy. rewrite forallb_forall in H. specialize (H x Hx). rewrite forallb_forall in H. auto. Qed.

Lemma pfcp_ids : ids_faithful pfcp_msgs.
Proof.
  intros i j Hi Hj E.
  assert (G : forallb (fun x => forallb (fun y => negb (g_id (gd x) =? g_id (gd y)) || gdef_eqb (gd x) (gd y) && gn_eqb (gn x) (gn y)) (all_ies pfcp_msgs)) (all_ies pfcp_msgs) = true)
    by (vm_compute; reflexivity).
  pose proof (pairs_ok _ _ G i j Hi Hj) as P. cbn beta in P. rewrite E, N.eqb_refl in P. cbn in P.
  apply andb_true_iff in P. destruct P as [P1 P2]. split; [apply gdef_eqb_eq|apply gn_eqb_eq]; assumption.
Qed.

Lemma all_b (f : gie -> bool) : forallb f (all_ies pfcp_msgs) = true -> forall i, In i (all_ies pfcp_msgs) -> f i = true.
Proof. intros H. apply forallb_forall, H. Qed.
Definition is_group (i : gie) : bool := match gn i with Some _ => true | None => false end.
Lemma group_b i : gn i <> None -> is_group i = true.
Proof. unfold is_group. destruct (gn i); [auto|congruence]. Qed.
Lemma leaf_b i : gn i = None -> is_group i = false.
Proof. unfold is_group. intros ->. reflexivity. Qed.

Lemma pfcp_nonempty : groups_nonempty pfcp_msgs.
Proof.
  intros i Hi. assert (G : forallb (fun i => match gn i with Some [] => false | _ => true end) (all_ies pfcp_msgs) = true) by (vm_compute; reflexivity).
  pose proof (all_b _ G i Hi) as P. cbn beta in P. intros E. rewrite E in P. discriminate.
Qed.
Definition len_ok (s : string) : bool := (String.length s <=? 255)%nat.
Lemma pfcp_short : names_short pfcp_cfg pfcp_msgs.
Proof.
  intros i Hi _. assert (G : forallb (fun i => len_ok (dtype pfcp_cfg i) && len_ok (tag_of i)) (all_ies pfcp_msgs) = true) by (vm_compute; reflexivity).
  pose proof (all_b _ G i Hi) as P. cbn beta in P. apply andb_true_iff in P. destruct P as [P1 P2]. split; apply Nat.leb_le; assumption.
Qed.
(* equal types: the same definition *)
Definition same_if (f : gie -> string) (x y : gie) : bool := negb (is_group x && is_group y && String.eqb (f x) (f y)) || (g_id (gd x) =? g_id (gd y)).
Lemma same_if_ok f : forallb (fun x => forallb (same_if f x) (all_ies pfcp_msgs)) (all_ies pfcp_msgs) = true ->
  forall i j, In i (all_ies pfcp_msgs) -> In j (all_ies pfcp_msgs) -> gn i <> None -> gn j <> None -> f i = f j -> g_id (gd i) = g_id (gd j).
Proof.
  intros G i j Hi Hj Ni Nj E. pose proof (pairs_ok _ _ G i j Hi Hj) as P. unfold same_if in P. rewrite (group_b i Ni), (group_b j Nj), E, String.eqb_refl in P. cbn in P.
  apply N.eqb_eq, P.
Qed.
Lemma pfcp_types : types_consistent pfcp_cfg pfcp_msgs.
Proof.
  intros i j a b Hi Hj Ha Hb E.
  assert (G : forallb (fun x => forallb (same_if (dtype pfcp_cfg) x) (all_ies pfcp_msgs)) (all_ies pfcp_msgs) = true) by (vm_compute; reflexivity).
  assert (P : g_id (gd i) = g_id (gd j)) by (apply (same_if_ok _ G); auto; congruence).
  destruct (pfcp_ids i j Hi Hj P) as [_ Q]. congruence.
Qed.
Lemma pfcp_tags i j : In i (all_ies pfcp_msgs) -> In j (all_ies pfcp_msgs) -> gn i <> None -> gn j <> None -> tag_of i = tag_of j -> g_id (gd i) = g_id (gd j).
Proof. apply same_if_ok. vm_compute. reflexivity. Qed.

Lemma forall_b {A} (f : A -> bool) (P : A -> Prop) l : (forall x, f x = true -> P x) -> forallb f l = true -> Forall P l.
Proof. intros H G. apply Forall_forall. intros x Hx. apply H. rewrite forallb_forall in G. auto. Qed.
Lemma neq_b a b : negb (String.eqb a b) = true -> a <> b.
Proof. rewrite negb_true_iff. apply String.eqb_neq. Qed.
Definition somb {A} (x : option A) : bool := match x with Some _ => true | None => false end.
Lemma somb_ok {A} (x : option A) : somb x = true -> defined x.
Proof. destruct x; [discriminate|discriminate]. Qed.

Lemma pfcp_well_named te0 : pfcp_env te0 -> well_named pfcp_cfg te0 pfcp_ce pfcp_msgs.
Proof.
  intros (HB & HU & HA & HL & HG).
  assert (HG' : forall t, in_b t pfcp_gen_types = true -> te0 t = None) by (intros t Ht; apply in_b_ok in Ht; rewrite Forall_forall in HG; auto).
  unfold well_named. split; [exact pfcp_short|]. split.
  { intros i Hi _. assert (G : forallb (fun i => len_ok (match g_denc (gd i) with Some f => f | None => tag_of i end)) (all_ies pfcp_msgs) = true) by (vm_compute; reflexivity).
    pose proof (all_b _ G i Hi) as P. apply Nat.leb_le, P. }
  split; [exact pfcp_tags|]. split; [exact pfcp_types|]. split.
  { intros i ies Hi E. assert (G : forallb (fun i => match gn i with Some ies => nodup_b (map mb_name (members pfcp_cfg ies)) | None => true end) (all_ies pfcp_msgs) = true) by (vm_compute; reflexivity).
    pose proof (all_b _ G i Hi) as P. cbn beta in P. rewrite E in P. apply nodup_b_ok, P. }
  split. { apply (forall_b (fun m => nodup_b (map mb_name (members pfcp_cfg (snd m))))); [intros m; apply nodup_b_ok|vm_compute; reflexivity]. }
  split; [apply nodup_b_ok; vm_compute; reflexivity|].
  split. { destruct HB as (b & -> & _). discriminate. } split. { destruct HU as (b & -> & _). discriminate. }
  split.
  { intros i Hi E. assert (G : forallb (fun i => is_group i || in_b (dtype pfcp_cfg i) pfcp_leaf_types) (all_ies pfcp_msgs) = true) by (vm_compute; reflexivity).
    pose proof (all_b _ G i Hi) as P. cbn beta in P. rewrite (leaf_b i E) in P. cbn [orb] in P. apply in_b_ok in P. rewrite Forall_forall in HL.
    destruct (HL _ P) as (ty & -> & _). discriminate. }
  split.
  { intros i Hi E. assert (G : forallb (fun i => negb (is_group i) || (in_b (dtype pfcp_cfg i) pfcp_gen_types && negb (String.eqb (dtype pfcp_cfg i) (msg_union pfcp_cfg))
        && forallb (fun m : gmsg => negb (String.eqb (dtype pfcp_cfg i) (msg_struct pfcp_cfg (fst m))) && negb (String.eqb (tag_of i) ("msg_" ++ fst m))) pfcp_msgs)) (all_ies pfcp_msgs) = true) by (vm_compute; reflexivity).
    pose proof (all_b _ G i Hi) as P. cbn beta in P. rewrite (group_b i E) in P. cbn [negb orb] in P. apply andb_true_iff in P. destruct P as [P P3]. apply andb_true_iff in P. destruct P as [P1 P2].
    split; [apply HG', P1|]. split; [apply neq_b, P2|].
    revert P3. apply forall_b. intros m H. apply andb_true_iff in H. destruct H as [H1 H2]. split; apply neq_b; assumption. }
  split.
  { apply (forall_b (fun m : gmsg => in_b (msg_struct pfcp_cfg (fst m)) pfcp_gen_types && negb (String.eqb (msg_struct pfcp_cfg (fst m)) (msg_union pfcp_cfg)))); [|vm_compute; reflexivity].
    intros m H. apply andb_true_iff in H. destruct H as [H1 H2]. split; [apply HG', H1|apply neq_b, H2]. }
  split; [apply HG'; vm_compute; reflexivity|]. split.
  { intros i Hi. assert (G : forallb (fun i => somb (pfcp_ce (gc_tagp pfcp_cfg ++ toupper (tag_of i))) && negb (somb (g_inst (gm i)))) (all_ies pfcp_msgs) = true) by (vm_compute; reflexivity).
    pose proof (all_b _ G i Hi) as P. cbn beta in P. apply andb_true_iff in P. destruct P as [P1 P2]. split; [apply somb_ok, P1|]. intros x Hx. rewrite Hx in P2. discriminate. }
  apply (forall_b (fun m : gmsg => somb (pfcp_ce (gc_msgt pfcp_cfg ++ toupper (fst m))))); [intros m; apply somb_ok|vm_compute; reflexivity].
Qed.

(* the functions work on the type that was declared *)
Lemma pfcp_leaf_type i : In i (all_ies pfcp_msgs) -> gn i = None -> type_of (funcs_of pfcp_cfg i) = Some (dtype pfcp_cfg i).
Proof.
  intros Hi E. assert (G : forallb (fun i => is_group i || ostr_eqb (type_of (funcs_of pfcp_cfg i)) (Some (dtype pfcp_cfg i))) (all_ies pfcp_msgs) = true) by (vm_compute; reflexivity).
  pose proof (all_b _ G i Hi) as P. cbn beta in P. rewrite (leaf_b i E) in P. apply ostr_eqb_eq, P.
Qed.
(* what the definitions mean *)
Definition pfcp_tabs : list (N * list pcoding) :=
  [ (1, ies_heartbeat); (2, ies_heartbeat); (5, ies_assoc_setup_req); (6, ies_assoc_setup_resp); (9, ies_assoc_release_req); (10, ies_assoc_release_resp);
    (50, ies_session_est_req); (51, ies_session_est_resp); (52, ies_session_mod_req); (53, ies_session_mod_resp); (54, []); (55, ies_session_del_resp) ].
Lemma pfcp_means : map (fun m : gmsg => (pfcp_ce (gc_msgt pfcp_cfg ++ toupper (fst m)), means_list pfcp_cfg pfcp_ce pfcp_leaf (snd m))) pfcp_msgs
  = map (fun e => (Some (fst e), Some (map ptab (snd e)))) pfcp_tabs.
Proof. vm_compute. reflexivity. Qed.

Lemma get_coding_tabs t : get_msg_coding t = option_map snd (find (fun e => fst e =? t) pfcp_tabs).
Proof.
  unfold get_msg_coding, pfcp_tabs, find, fst. rewrite !(N.eqb_sym t).
  change msgt_heartbeat_req with 1. change msgt_heartbeat_resp with 2. change msgt_assoc_setup_req with 5. change msgt_assoc_setup_resp with 6.
  change msgt_assoc_release_req with 9. change msgt_assoc_release_resp with 10. change msgt_session_est_req with 50. change msgt_session_est_resp with 51.
  change msgt_session_mod_req with 52. change msgt_session_mod_resp with 53. change msgt_session_del_req with 54. change msgt_session_del_resp with 55.
  repeat match goal with |- (if ?c then _ else _) = _ => destruct c; [reflexivity|] end. reflexivity.
Qed.
Lemma find_mono {A B} (g : B -> A) (l1 : list (N * B)) t :
  option_map g (option_map snd (find (fun e => fst e =? t) l1)) = option_map snd (find (fun e => fst e =? t) (map (fun e => (fst e, g (snd e))) l1)).
Proof. induction l1 as [|[a b] l IH]; cbn; [reflexivity|]. destruct (a =? t); [reflexivity|exact IH]. Qed.
Lemma find_rev {A} (l : list (N * A)) t : NoDup (map fst l) -> find (fun e => fst e =? t) (rev l) = find (fun e => fst e =? t) l.
Proof.
  induction l as [|[a b] l IH]; intros H; cbn; [reflexivity|]. inversion H as [|x y H1 H2]; subst. specialize (IH H2).
  assert (F : forall l1 l2 : list (N * A), find (fun e => fst e =? t) (l1 ++ l2) = match find (fun e => fst e =? t) l1 with Some x => Some x | None => find (fun e => fst e =? t) l2 end).
  { intros l1 l2. induction l1 as [|[c d] l1 IH1]; cbn; [reflexivity|]. destruct (c =? t); [reflexivity|exact IH1]. }
  rewrite F, IH. cbn. destruct (a =? t) eqn:E.
  - apply N.eqb_eq in E. subst a. destruct (find (fun e => fst e =? t) l) as [[c d]|] eqn:G; [|reflexivity].
    apply find_some in G. destruct G as [G1 G2]. cbn in G2. apply N.eqb_eq in G2. subst c. exfalso. apply H1. apply (in_map fst) in G1. exact G1.
  - destruct (find _ l); reflexivity.
Qed.
Lemma defs_get_find defs t : NoDup (map fst defs) -> defs_get defs t = option_map snd (find (fun e => fst e =? t) defs).
Proof.
  intros H. unfold defs_get. rewrite (find_rev defs t H). destruct (defs_size defs <=? t) eqn:E; [|reflexivity].
  destruct (find _ defs) as [[c d]|] eqn:G; [|reflexivity]. apply find_some in G. destruct G as [G1 G2]. cbn in G2. apply N.eqb_eq in G2. subst c.
  apply N.leb_le in E. pose proof (defs_size_in defs (t, d) G1) as P. cbn in P. lia.
Qed.

Definition sizes_agree (te : tenv) (lk : fns -> mleaf) : Prop :=
  forall f t ty, type_of f = Some t -> te t = Some ty -> ml_size (lk f) = ty_size ty.

Lemma pfcp_leaf_in i : In i (all_ies pfcp_msgs) -> gn i = None -> In (dtype pfcp_cfg i) pfcp_leaf_types.
Proof.
  intros Hi Hn.
  assert (G : forallb (fun i => is_group i || in_b (dtype pfcp_cfg i) pfcp_leaf_types) (all_ies pfcp_msgs) = true) by (vm_compute; reflexivity).
  pose proof (all_b _ G i Hi) as Q. cbn beta in Q. rewrite (leaf_b i Hn) in Q. cbn [orb] in Q. apply in_b_ok in Q. exact Q.
Qed.
Lemma pfcp_union : msg_union pfcp_cfg = "union osmo_pfcp_ies".
Proof. reflexivity. Qed.
Lemma pfcp_first : exists m, In m pfcp_msgs /\ snd m <> [].
Proof. eexists. split; [left; reflexivity|discriminate]. Qed.
Lemma pfcp_index : map fst pfcp_tabs = [1; 2; 5; 6; 9; 10; 50; 51; 52; 53; 54; 55].
Proof. reflexivity. Qed.
Lemma pfcp_nodup : NoDup (map fst pfcp_tabs).
Proof. rewrite pfcp_index. repeat constructor; cbn; intuition discriminate. Qed.
Lemma forall2_in_l {A B} (R : A -> B -> Prop) l l' x : Forall2 R l l' -> In x l -> exists y, In y l' /\ R x y.
Proof. induction 1 as [|a b l l' H1 H2 IH]; intros Hx; [destruct Hx|]. destruct Hx as [->|Hx]; [exists b; split; [left; reflexivity|exact H1]|]. destruct (IH Hx) as (y & Y1 & Y2). exists y. split; [right; exact Y1|exact Y2]. Qed.
Lemma forall2_in_r {A B} (R : A -> B -> Prop) l l' y : Forall2 R l l' -> In y l' -> exists x, In x l /\ R x y.
Proof. induction 1 as [|a b l l' H1 H2 IH]; intros Hx; [destruct Hx|]. destruct Hx as [->|Hx]; [exists a; split; [left; reflexivity|exact H1]|]. destruct (IH Hx) as (x & Y1 & Y2). exists x. split; [right; exact Y1|exact Y2]. Qed.
Lemma forall2_imp {A B} (R S : A -> B -> Prop) l l' : (forall x y, R x y -> S x y) -> Forall2 R l l' -> Forall2 S l l'.
Proof. intros H. induction 1; constructor; auto. Qed.

Lemma tabs_eq {A B C D} (f : A -> option N) (g : A -> option D) (g1 : N * B -> D) (g2 : N * C -> D) (ms : list A) (defs : list (N * B)) (tabs : list (N * C)) :
  map (fun m => (f m, g m)) ms = map (fun e => (Some (fst e), Some (g2 e))) tabs ->
  Forall2 (fun m d => f m = Some (fst d) /\ g m = Some (g1 d)) ms defs ->
  map (fun d => (fst d, g1 d)) defs = map (fun e => (fst e, g2 e)) tabs.
Proof.
  intros H F. revert tabs H. induction F as [|m d ms defs [P1 P2] F IH]; intros [|e tabs] H; try discriminate; [reflexivity|].
  cbn [map] in H |- *. injection H as H1 H2 H3. rewrite P1 in H1. rewrite P2 in H2. injection H1 as ->. injection H2 as ->. rewrite (IH _ H3). reflexivity.
Qed.
Lemma gen_ext cfg te0 ce ms r : gen_and_compile cfg te0 ce ms = Some r -> types_consistent cfg ms -> names_short cfg ms -> aligns te0 -> ext te0 (gr_types r).
Proof.
  intros H HC HS HA. unfold gen_and_compile in H. ob H hs Hh. ob H cs Hc. ob H te Ht. ob H defs Hd. injection H as <-. cbn [gr_types].
  apply (header_ok cfg ms HC HS te0 hs te HA Hh Ht).
Qed.
(* the tables with the kind of a leaf in place of its functions *)
Definition kfn (k : kind) : leaf kind := mkLeaf (Some (fun _ _ => Ok k)) None.
Definition kleaf (f : fns) : leaf kind := kfn (kind_of f).
Fixpoint ktab (p : pcoding) : coding kind := match p with PLeaf h k => CLeaf h (kfn k) | PNest h l => CNest h None OrdSame (map ktab l) end.
Lemma pfcp_means_k : map (fun m : gmsg => (pfcp_ce (gc_msgt pfcp_cfg ++ toupper (fst m)), means_list pfcp_cfg pfcp_ce kleaf (snd m))) pfcp_msgs
  = map (fun e => (Some (fst e), Some (map ktab (snd e)))) pfcp_tabs.
Proof. vm_compute. reflexivity. Qed.
Section Inst.
Variable te0 : tenv.
Hypothesis HE : pfcp_env te0.
Variable r : generated.
Hypothesis Hr : gen_and_compile pfcp_cfg te0 pfcp_ce pfcp_msgs = Some r.
Lemma inst_aligns : aligns te0.
Proof. destruct HE as (_ & _ & HA & _). exact HA. Qed.
Lemma inst_base : base_types_ok te0.
Proof. destruct HE as (HB & HU & HA & _). split; [exact HB|split; [exact HU|exact HA]]. Qed.
Lemma inst_ext : ext te0 (gr_types r).
Proof. exact (gen_ext _ _ _ _ _ Hr pfcp_types pfcp_short inst_aligns). Qed.
Lemma inst_leaf lk : sizes_agree te0 lk -> leaf_types_ok pfcp_cfg pfcp_msgs (gr_types r) lk.
Proof.
  intros SA i ty Hi Hn Ht. pose proof (pfcp_leaf_type i Hi Hn) as P. pose proof (pfcp_leaf_in i Hi Hn) as Q. destruct HE as (_ & _ & _ & HL & _). rewrite Forall_forall in HL.
  destruct (HL _ Q) as (ty0 & T0 & T1). pose proof (inst_ext _ _ T0) as T2. assert (ty0 = ty) by congruence. subst ty0. split; [|exact T1]. symmetry. apply (SA _ _ _ P T0).
Qed.
Definition lk0 : fns -> mleaf :=
  fun f => mkMLeaf (match type_of f with Some t => match te0 t with Some ty => ty_size ty | None => 0 end | None => 0 end) None None None.
Lemma lk0_agree : sizes_agree te0 lk0.
Proof. intros f t ty H1 H2. unfold lk0. rewrite H1, H2. reflexivity. Qed.
Lemma inst_correct_any {V} (la : fns -> leaf V) lk : sizes_agree te0 lk ->
  exists u, gr_types r (msg_union pfcp_cfg) = Some u
  /\ Forall2 (fun m d => pfcp_ce (gc_msgt pfcp_cfg ++ toupper (fst m)) = Some (fst d)
       /\ means_list pfcp_cfg pfcp_ce la (snd m) = Some (map (erase la) (snd d))
       /\ Forall2 (placed pfcp_cfg (gr_types r) (msg_struct pfcp_cfg (fst m))) (snd m) (snd d)
       /\ (0 < ty_size u -> layout_ok lk (ty_size u) (snd d))
       /\ (snd m <> [] -> 0 < ty_size u)) pfcp_msgs (gr_defs r).
Proof. intros SA. apply (gen_correct pfcp_cfg te0 pfcp_ce la lk pfcp_msgs r Hr pfcp_ids pfcp_types pfcp_short pfcp_nonempty inst_base (inst_leaf _ SA)). Qed.
Definition inst_correct := inst_correct_any pfcp_leaf.
Lemma inst_tabs : map (fun d => (fst d, map (erase pfcp_leaf) (snd d))) (gr_defs r) = map (fun e => (fst e, map ptab (snd e))) pfcp_tabs.
Proof.
  destruct (inst_correct lk0 lk0_agree) as (u & _ & F0).
  refine (tabs_eq (fun m : gmsg => pfcp_ce (gc_msgt pfcp_cfg ++ toupper (fst m))) (fun m : gmsg => means_list pfcp_cfg pfcp_ce pfcp_leaf (snd m))
            (fun d => map (erase pfcp_leaf) (snd d)) (fun e => map ptab (snd e)) pfcp_msgs (gr_defs r) pfcp_tabs pfcp_means _).
  revert F0. apply forall2_imp. intros m d (P1 & P2 & _). split; [exact P1|exact P2].
Qed.
Lemma inst_nodup : NoDup (map fst (gr_defs r)).
Proof.
  assert (E : map fst (gr_defs r) = map fst pfcp_tabs).
  { pose proof (f_equal (map fst) inst_tabs) as H. rewrite !map_map in H. exact H. }
  rewrite E. exact pfcp_nodup.
Qed.
Lemma inst_get t : option_map (map (erase pfcp_leaf)) (defs_get (gr_defs r) t) = msg_table t.
Proof.
  rewrite (defs_get_find _ t inst_nodup). unfold msg_table. rewrite get_coding_tabs, find_mono, find_mono, inst_tabs. reflexivity.
Qed.
(* which functions the leaf IEs have *)
Lemma inst_kinds : map (fun d => (fst d, map (erase kleaf) (snd d))) (gr_defs r) = map (fun e => (fst e, map ktab (snd e))) pfcp_tabs.
Proof.
  destruct (inst_correct_any kleaf lk0 lk0_agree) as (u & _ & F0).
  refine (tabs_eq (fun m : gmsg => pfcp_ce (gc_msgt pfcp_cfg ++ toupper (fst m))) (fun m : gmsg => means_list pfcp_cfg pfcp_ce kleaf (snd m))
            (fun d => map (erase kleaf) (snd d)) (fun e => map ktab (snd e)) pfcp_msgs (gr_defs r) pfcp_tabs pfcp_means_k _).
  revert F0. apply forall2_imp. intros m d (P1 & P2 & _). split; [exact P1|exact P2].
Qed.
Lemma inst_kind_get t : option_map (map (erase kleaf)) (defs_get (gr_defs r) t) = option_map (map ktab) (get_msg_coding t).
Proof.
  rewrite (defs_get_find _ t inst_nodup). rewrite get_coding_tabs, find_mono, find_mono, inst_kinds. reflexivity.
Qed.
End Inst.
Lemma pfcp_generated te0 : pfcp_env te0 ->
  exists r u, gen_and_compile pfcp_cfg te0 pfcp_ce pfcp_msgs = Some r
  /\ (forall T ty, te0 T = Some ty -> gr_types r T = Some ty)
  /\ gr_types r "union osmo_pfcp_ies" = Some u
  /\ (forall t, option_map (map (erase pfcp_leaf)) (defs_get (gr_defs r) t) = msg_table t)
  /\ Forall2 (fun m d => Forall2 (placed pfcp_cfg (gr_types r) (msg_struct pfcp_cfg (fst m))) (snd m) (snd d)) pfcp_msgs (gr_defs r)
  /\ (forall t ies lk, defs_get (gr_defs r) t = Some ies -> sizes_agree te0 lk -> layout_ok lk (ty_size u) ies)
  /\ 0 < ty_size u.
Proof.
  intros HE. destruct (gen_compiles pfcp_cfg te0 pfcp_ce pfcp_msgs (pfcp_well_named te0 HE) (inst_aligns te0 HE)) as (r & Hr).
  destruct (inst_correct te0 HE r Hr (lk0 te0) (lk0_agree te0)) as (u & U1 & F0). exists r, u. split; [exact Hr|]. split; [exact (inst_ext te0 HE r Hr)|].
  split; [rewrite <- pfcp_union; exact U1|]. split; [exact (inst_get te0 HE r Hr)|].
  assert (UP : 0 < ty_size u).
  { destruct pfcp_first as (m & M1 & M2). destruct (forall2_in_l _ _ _ m F0 M1) as (d & _ & _ & _ & _ & _ & P). exact (P M2). }
  split; [revert F0; apply forall2_imp; intros m d (_ & _ & P & _); exact P|].
  split; [|exact UP].
  intros t ies lk Hg SA. destruct (inst_correct te0 HE r Hr lk SA) as (u' & U1' & F1). assert (u' = u) by congruence. subst u'.
  rewrite (defs_get_find _ t (inst_nodup te0 HE r Hr)) in Hg. destruct (find _ (gr_defs r)) as [[c d]|] eqn:G; [|discriminate]. injection Hg as ->. apply find_some in G. destruct G as [G _].
  destruct (forall2_in_r _ _ _ _ F1 G) as (m & _ & _ & _ & _ & P & _). exact (P UP).
Qed.

(* ---------------------------------------------------------------- the functions of the IEs *)
Lemma placed_functions cfg te i : forall T d, placed cfg te T i d -> forall f, In f (all_functions d) -> exists j, In j (occs i) /\ gn j = None /\ f = funcs_of cfg j.
Proof.
  induction i as [m g|m g ies IH] using gie_ind'; intros T d H f Hf; destruct d as [h k|h sz nc o ds]; cbn [placed] in H; try contradiction.
  - destruct H as [_ ->]. destruct Hf as [<-|[]]. eexists. split; [left; reflexivity|]. split; reflexivity.
  - destruct H as [_ H]. cbn [all_functions] in Hf. revert H Hf. generalize (dtype cfg (GIe m g (Some ies))). intros T'.
    assert (G : Forall2 (placed cfg te T') ies ds -> In f (flat_map all_functions ds) -> exists j, In j (flat_map occs ies) /\ gn j = None /\ f = funcs_of cfg j).
    { intros F. revert f IH. induction F as [|a b l l' Hab F IHF]; intros f IH Hf; [destruct Hf|]. inversion IH as [|? ? I1 I2]; subst. cbn [flat_map] in Hf |- *.
      apply in_app_or in Hf as [Hf|Hf].
      - destruct (I1 _ _ Hab _ Hf) as (j & J1 & J2). exists j. split; [apply in_or_app; left; exact J1|exact J2].
      - destruct (IHF _ I2 Hf) as (j & J1 & J2). exists j. split; [apply in_or_app; right; exact J1|exact J2]. }
    intros H Hf'. destruct (G) as (j & J1 & J2); [|exact Hf'|exists j; split; [right; exact J1|exact J2]].
    clear -H. revert ds H. induction ies as [|a l IH]; intros [|b ds] H; try contradiction; [constructor|]. destruct H. constructor; auto.
Qed.
Definition named_functions (f : fns) (n : string) : bool :=
  String.eqb (fn_dec f) ("osmo_pfcp_dec_" ++ n) && String.eqb (fn_enc f) ("osmo_pfcp_enc_" ++ n)
  && match fn_str f with Some s => String.eqb s ("osmo_pfcp_enc_to_str_" ++ n) | None => false end.
Lemma named_eq f n : named_functions f n = true -> f = mkFns ("osmo_pfcp_dec_" ++ n) ("osmo_pfcp_enc_" ++ n) (Some ("osmo_pfcp_enc_to_str_" ++ n)%string).
Proof.
  unfold named_functions. destruct f as [a b [c|]]; cbn [fn_dec fn_enc fn_str]; rewrite !andb_true_iff; [|intros [_ X]; discriminate].
  intros [[H1 H2] H3]. apply String.eqb_eq in H1, H2, H3. subst. reflexivity.
Qed.
Lemma pfcp_named_b : forallb (fun i => match gn i with Some _ => true | None =>
    existsb (fun n => named_functions (funcs_of pfcp_cfg i) n && existsb (String.eqb ("osmo_pfcp_dec_" ++ n)) (map fst pfcp_funcs)) (map (fun e => substring 14 40 (fst e)) pfcp_funcs) end)
  (all_ies pfcp_msgs) = true.
Proof. vm_compute. reflexivity. Qed.
Lemma pfcp_functions te0 r d f : pfcp_env te0 -> gen_and_compile pfcp_cfg te0 pfcp_ce pfcp_msgs = Some r ->
  In d (gr_defs r) -> In f (flat_map all_functions (snd d)) ->
  exists n, In ("osmo_pfcp_dec_" ++ n)%string (map fst pfcp_funcs)
  /\ f = mkFns ("osmo_pfcp_dec_" ++ n) ("osmo_pfcp_enc_" ++ n) (Some ("osmo_pfcp_enc_to_str_" ++ n)%string).
Proof.
  intros HE Hr Hd Hf. destruct (pfcp_generated te0 HE) as (r' & u & HG' & _ & _ & _ & HP & _). assert (r' = r) by congruence. subst r'.
  destruct (forall2_in_r _ _ _ _ HP Hd) as (m & M1 & M2). apply in_flat_map in Hf as (c & C1 & C2).
  destruct (forall2_in_r _ _ _ _ M2 C1) as (i & I1 & I2). destruct (placed_functions _ _ _ _ _ I2 _ C2) as (j & J1 & J2 & J3).
  pose proof pfcp_named_b as B. rewrite forallb_forall in B. specialize (B j). rewrite J2, <- J3 in B.
  assert (Hj : In j (all_ies pfcp_msgs)) by (apply in_flat_map; exists m; split; [exact M1|apply in_flat_map; exists i; split; assumption]).
  specialize (B Hj). apply existsb_exists in B as (n & _ & B). apply andb_true_iff in B as [B1 B2]. exists n. split; [|apply named_eq; exact B1].
  apply existsb_exists in B2 as (s & S1 & S2). apply String.eqb_eq in S2. rewrite S2. exact S1.
Qed.
