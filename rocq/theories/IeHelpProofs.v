(* IeHelpProofs.v -- the helper functions on memory (IeHelpModel.v) do what those of IesModel.v do with the values in the members *)
From Coq Require Import String Ascii.
From Verif Require Import Base BaseProofs GtlvModel DecEncModel CStr IesModel IesSpec IesProofs HelperProofs TablesModel StrModel MemModel MemSpec MemProofs MemTest GenModel GenProofs GenPfcp PfcpMem PfcpMemProofs ReadProofs IeMemModel IeMemSpec IeMemProofs IeMemStr IeMemDec IeEncModel IeEncProofs IeHelpModel IeHelpSpec.
Local Open Scope string_scope.
Local Open Scope N_scope.
Local Open Scope list_scope.

Section Help.
Variable te : tenv.
Variable be : bool.
Variable sa_img : sa -> list N.
Variable sa_rd : list N -> sa.
Variable set_port0 : list N -> list N.
Hypothesis HL : Forall (laid_out te) custom_h.
Hypothesis HB : base_sizes te.
Hypothesis HS : sockaddr_ok te sa_img sa_rd.
Hypothesis HP : sets_port0 te sa_rd set_port0.
Notation SA := (sz te SOCKADDR).
Notation vb := v_bool.
Notation vn := (v_num te be).
Notation vs := (v_sa te sa_rd).
Lemma hlay n h : nth_error custom_h n = Some h -> laid_out te h.
Proof. intros E. apply nth_error_In in E. rewrite Forall_forall in HL. exact (HL h E). Qed.
Ltac lay_in L := unfold laid_out, chain, member_sz, mb, mba in L; cbn [mb_name mb_arr mb_type] in L.
Ltac layout n L := pose proof (hlay n _ eq_refl) as L; lay_in L.
Ltac bases := destruct HB as (B_bool & B_char & B_8 & B_16 & B_32 & B_64 & B_cause & B_iei & B_3gpp & B_src & B_dst & B_nidt & B_ohr).

Lemma only_refl a n mem : only a n mem mem.
Proof. split; auto. Qed.
Lemma only_get a n mem new o k : only a n mem new -> o + k <= a \/ a + n <= o -> o + k <= lenN mem -> get_at o k new = get_at o k mem.
Proof. intros [_ H]. exact (H o k). Qed.
Lemma only_in a n a' n' mem m1 new : only a n mem m1 -> only a' n' m1 new -> a <= a' -> a' + n' <= a + n -> only a n mem new.
Proof.
  intros [L1 H1] [L2 H2] A B. split; [congruence|]. intros o k D E. rewrite H2 by (rewrite ?L1; lia). apply H1; lia.
Qed.
Lemma only_sub a n a' n' mem new : only a' n' mem new -> a <= a' -> a' + n' <= a + n -> only a n mem new.
Proof. intros H A B. exact (only_in _ _ _ _ _ _ _ (only_refl a n mem) H A B). Qed.
Lemma wr_only a bs m : a + lenN bs <= lenN m -> exists m', wr a bs m = (m', Ok tt) /\ get_at a (lenN bs) m' = bs /\ only a (lenN bs) m m'.
Proof. intros H. destruct (wr_step a bs m H) as (m' & W & L & G & O). exists m'. split; [exact W|]. split; [exact G|]. split; auto. Qed.
Lemma bind_ok_mm {A B} (c : mm A) (f : A -> mm B) m m' a : c m = (m', Ok a) -> bindm c f m = f a m'.
Proof. intros E. unfold bindm. rewrite E. reflexivity. Qed.
Lemma lift_ok {A B} (a : A) (f : A -> mm B) m : bindm (lift (Ok a)) f m = f a m.
Proof. reflexivity. Qed.

(* ---------------------------------------------------------------- addresses *)
Lemma store_addr m p fl t x : fl + 1 <= lenN m -> t + SA <= lenN m -> fl + 1 <= t \/ t + SA <= fl -> lenN x = SA ->
  (forall m', only fl 1 m m' -> ld_sa te p m' = (m', Ok x)) ->
  exists new, (_ <~ st_bool fl true ;; y <~ ld_sa te p ;; _ <~ wr t y ;; w <~ MemModel.rd t SA ;; wr t (set_port0 w)) m = (new, Ok tt)
    /\ lenN new = lenN m /\ get_at t SA new = set_port0 x /\ vb fl new = true
    /\ (forall o k, o + k <= fl \/ fl + 1 <= o -> o + k <= t \/ t + SA <= o -> o + k <= lenN m -> get_at o k new = get_at o k m).
Proof.
  intros H1 H2 H3 HX HLD. destruct (HP x HX) as [PL _].
  destruct (wr_only fl (b2y true) m) as (m1 & W1 & G1 & O1); [exact H1|]. unfold st_bool. rewrite (bind_ok_mm _ _ _ _ _ W1).
  change (lenN (b2y true)) with 1 in *. rewrite (bind_ok_mm _ _ _ _ _ (HLD m1 O1)). destruct O1 as [L1 O1].
  destruct (wr_only t x m1) as (m2 & W2 & G2 & O2); [lia|]. rewrite (bind_ok_mm _ _ _ _ _ W2). rewrite HX in *. destruct O2 as [L2 O2].
  assert (R : MemModel.rd t SA m2 = (m2, Ok x)) by (rewrite rd_get by lia; rewrite G2; reflexivity). rewrite (bind_ok_mm _ _ _ _ _ R).
  destruct (wr_only t (set_port0 x) m2) as (m3 & W3 & G3 & O3); [lia|]. rewrite PL in *. destruct O3 as [L3 O3].
  exists m3. split; [exact W3|]. split; [congruence|]. split; [exact G3|]. split.
  - unfold v_bool. rewrite O3, O2 by lia. rewrite G1. reflexivity.
  - intros o k A B C. rewrite O3, O2, O1 by lia. reflexivity.
Qed.
Lemma ptr_load o m p : addr_ptr te o m p -> lenN (addr_at te m p) = SA /\ ld_sa te p m = (m, Ok (addr_at te m p)).
Proof.
  destruct p as [l|a]; cbn [addr_ptr addr_at ld_sa].
  - intros H. split; [exact H|reflexivity].
  - intros [H _]. split; [apply get_len, H|apply rd_get, H].
Qed.
Lemma ptr_load' o m p fl m' : addr_ptr te o m p -> only fl 1 m m' ->
  match p with Elsewhere _ => True | Inside a => a + SA <= fl \/ fl + 1 <= a end -> ld_sa te p m' = (m', Ok (addr_at te m p)).
Proof.
  destruct p as [l|a]; cbn [addr_ptr addr_at ld_sa]; intros H [L O] D; [reflexivity|]. destruct H as [H _]. rewrite rd_get by lia. rewrite O by lia. reflexivity.
Qed.

Lemma help_set o p mem : o + sz te IPA <= lenN mem -> addr_ptr te o mem p ->
  exists new rc, c_ip_addrs_set te sa_rd set_port0 o p mem = (new, rc) /\ only o (sz te IPA) mem new
    /\ ip_addrs_set (v_addrs te sa_rd o mem) (sa_rd (addr_at te mem p)) = (v_addrs te sa_rd o new, rc).
Proof.
  intros H A. destruct (ptr_load o mem p A) as [LX LD]. unfold c_ip_addrs_set. rewrite (bind_ok_mm _ _ _ _ _ LD).
  bases. layout 0%nat Y. rewrite B_bool in Y. destruct Y as (_ & Y1 & Y2 & Y3 & Y4).
  set (x := addr_at te mem p) in *. destruct (HP x LX) as [PL PR].
  destruct (sa_rd x) as [|a4 q|a6 q] eqn:Ex; cbn [ip_addrs_set].
  - exists mem, (Err ENOTSUP). split; [reflexivity|]. split; [apply only_refl|]. reflexivity.
  - destruct (store_addr mem p (o + fo te IPA "v4_present") (o + fo te IPA "v4") x) as (new & E & L & G & F & O); try lia.
    { intros m' OM. apply (ptr_load' o mem p _ m' A OM). destruct p as [l|a]; [exact Logic.I|]. cbn [addr_ptr] in A. lia. }
    exists new, (Ok tt). split; [exact E|]. split.
    { split; [exact L|]. intros k n D K. apply O; lia. }
    f_equal. unfold v_addrs. cbn [ia_v6p ia_v6]. f_equal.
    + symmetry. exact F.
    + unfold v_sa. rewrite G, PR. reflexivity.
    + unfold v_bool. rewrite O by lia. reflexivity.
    + unfold v_sa. rewrite O by lia. reflexivity.
  - destruct (store_addr mem p (o + fo te IPA "v6_present") (o + fo te IPA "v6") x) as (new & E & L & G & F & O); try lia.
    { intros m' OM. apply (ptr_load' o mem p _ m' A OM). destruct p as [l|a]; [exact Logic.I|]. cbn [addr_ptr] in A. lia. }
    exists new, (Ok tt). split; [exact E|]. split.
    { split; [exact L|]. intros k n D K. apply O; lia. }
    f_equal. unfold v_addrs. cbn [ia_v4p ia_v4]. f_equal.
    + unfold v_bool. rewrite O by lia. reflexivity.
    + unfold v_sa. rewrite O by lia. reflexivity.
    + symmetry. exact F.
    + unfold v_sa. rewrite G, PR. reflexivity.
Qed.

(* ---------------------------------------------------------------- F-SEID *)
Lemma ignore_spec c mem new rc : c mem = (new, rc) -> (forall u, rc <> UB u) -> ignore c mem = (new, Ok tt).
Proof. intros E N. unfold ignore. rewrite E. destruct rc as [[]|e|u]; [reflexivity|reflexivity|contradiction (N u eq_refl)]. Qed.
Lemma set_rc d x : forall u, snd (ip_addrs_set d x) <> UB u.
Proof. intros u. destruct x; discriminate. Qed.
(* after the F-SEID was cleared and the SEID was stored *)
Lemma help_fseid seid p mem x : lenN mem = sz te F_SEID -> seid < 2 ^ 64 ->
  (forall m', lenN m' = sz te F_SEID -> vn "uint64_t" (fo te F_SEID "seid") m' = seid ->
     (forall o k, fo te F_SEID "ip_addr" <= o -> o + k <= lenN m' -> get_at o k m' = Base.zeros (N.to_nat k)) ->
     addr_ptr te (fo te F_SEID "ip_addr") m' p /\ sa_rd (addr_at te m' p) = sa_rd x) ->
  exists new, c_f_seid_set te be sa_rd set_port0 seid p mem = (new, Ok tt) /\ lenN new = sz te F_SEID
    /\ c_val te be sa_rd KFSeid new = IvFseid (f_seid_set seid (sa_rd x)).
Proof.
  intros L HX HPT. bases. layout 0%nat Y0. layout 5%nat Y5. rewrite B_bool in Y0. rewrite B_64 in Y5. destruct Y0 as (_ & Y1 & Y2 & Y3 & Y4). destruct Y5 as (Z0 & Z1 & Z2).
  unfold c_f_seid_set, st_zero, st_num.
  destruct (wr_only 0 (Base.zeros (N.to_nat (sz te F_SEID))) mem) as (m1 & W1 & G1 & O1); [rewrite zeros_lenN; lia|].
  rewrite (bind_ok_mm _ _ _ _ _ W1). rewrite zeros_lenN in *. destruct O1 as [L1 O1].
  assert (ZZ : forall o k, o + k <= sz te F_SEID -> get_at o k m1 = Base.zeros (N.to_nat k)).
  { intros o k K. apply get_zero; [lia|]. pose proof (get_all (sz te F_SEID) m1 ltac:(lia)) as E. rewrite <- E, G1. apply zeros_zero. }
  assert (LN : lenN (n2y be (N.to_nat (sz te "uint64_t")) seid) = 8) by (rewrite n2y_len; lia).
  destruct (wr_only (fo te F_SEID "seid") (n2y be (N.to_nat (sz te "uint64_t")) seid) m1) as (m2 & W2 & G2 & O2); [lia|].
  rewrite (bind_ok_mm _ _ _ _ _ W2). rewrite LN in *. destruct O2 as [L2 O2].
  assert (VS : vn "uint64_t" (fo te F_SEID "seid") m2 = seid).
  { unfold v_num. rewrite B_64, G2. apply y2n_n2y. rewrite B_64. exact HX. }
  assert (VZ : forall o k, fo te F_SEID "ip_addr" <= o -> o + k <= lenN m2 -> get_at o k m2 = Base.zeros (N.to_nat k)).
  { intros o k A B. rewrite O2 by lia. apply ZZ. lia. }
  destruct (HPT m2 ltac:(congruence) VS VZ) as [AP AX].
  destruct (help_set (fo te F_SEID "ip_addr") p m2 ltac:(lia) AP) as (new & rc & E & O & V).
  exists new. split; [|split].
  - apply (ignore_spec _ _ _ rc E). pose proof (set_rc (v_addrs te sa_rd (fo te F_SEID "ip_addr") m2) (sa_rd (addr_at te m2 p))) as NU. rewrite V in NU. exact NU.
  - destruct O as [O _]. congruence.
  - cbn [c_val]. f_equal. unfold f_seid_set. f_equal.
    + unfold v_num. rewrite (only_get _ _ _ _ _ _ O) by (rewrite ?B_64; lia). exact VS.
    + rewrite AX in V. assert (NA : v_addrs te sa_rd (fo te F_SEID "ip_addr") m2 = no_addrs).
      { unfold v_addrs, no_addrs, v_bool, v_sa. rewrite !VZ by lia. rewrite (proj2 HS). reflexivity. }
      rewrite NA in V. rewrite V. reflexivity.
Qed.
Lemma help_fseid_else seid l mem : lenN mem = sz te F_SEID -> seid < 2 ^ 64 -> lenN l = SA ->
  exists new, c_f_seid_set te be sa_rd set_port0 seid (Elsewhere l) mem = (new, Ok tt) /\ lenN new = sz te F_SEID
    /\ c_val te be sa_rd KFSeid new = IvFseid (f_seid_set seid (sa_rd l)).
Proof.
  intros L HX HA. apply help_fseid; [exact L|exact HX|]. intros m' L' _ _. split; [exact HA|reflexivity].
Qed.
Lemma help_fseid_own seid n mem : lenN mem = sz te F_SEID -> seid < 2 ^ 64 -> n = "v4" \/ n = "v6" ->
  exists new, c_f_seid_set te be sa_rd set_port0 seid (Inside (fo te F_SEID "ip_addr" + fo te IPA n)) mem = (new, Ok tt) /\ lenN new = sz te F_SEID
    /\ c_val te be sa_rd KFSeid new = IvFseid (f_seid_set seid SaUnspec).
Proof.
  intros L HX HN. rewrite <- (proj2 HS). apply help_fseid; [exact L|exact HX|]. intros m' L' _ VZ.
  bases. layout 0%nat Y0. layout 5%nat Y5. rewrite B_bool in Y0. rewrite B_64 in Y5. destruct Y0 as (_ & Y1 & Y2 & Y3 & Y4). destruct Y5 as (Z0 & Z1 & Z2).
  cbn [addr_ptr addr_at]. destruct HN as [->| ->]; (split; [lia|]); rewrite VZ by lia; reflexivity.
Qed.

Lemma peek_at m a n : a + n <= lenN m -> peek a n m = Ok (get_at a n m).
Proof. intros H. unfold peek. destruct (N.leb_spec (a + n) (lenN m)); [reflexivity|lia]. Qed.
Lemma lb_at m a : a + 1 <= lenN m -> lb m a = Ok (vb a m).
Proof. intros H. unfold lb. rewrite peek_at by exact H. reflexivity. Qed.
Lemma ln_at m t a : a + sz te t <= lenN m -> ln te be m t a = Ok (vn t a m).
Proof. intros H. unfold ln. rewrite peek_at by exact H. reflexivity. Qed.
Lemma ls_at m a : a + SA <= lenN m -> ls te sa_rd m a = Ok (vs a m).
Proof. intros H. unfold ls. rewrite peek_at by exact H. reflexivity. Qed.
Lemma help_get src : lenN src = sz te IPA -> exists v4 v6, c_ip_addrs_get te src = Ok (v4, v6) /\ lenN v4 = SA /\ lenN v6 = SA
  /\ ip_addrs_get (v_addrs te sa_rd 0 src) = (sa_rd v4, sa_rd v6).
Proof.
  intros L. bases. layout 0%nat Y. rewrite B_bool in Y. destruct Y as (_ & Y1 & Y2 & Y3 & Y4).
  unfold c_ip_addrs_get. rewrite (lb_at src (fo te IPA "v4_present")), (lb_at src (fo te IPA "v6_present")), !peek_at by lia. cbn [bind].
  unfold ip_addrs_get, v_addrs. cbn [ia_v4p ia_v4 ia_v6p ia_v6]. rewrite !N.add_0_l. unfold v_sa.
  destruct (v_bool (fo te IPA "v4_present") src), (v_bool (fo te IPA "v6_present") src); cbn [bind]; (eexists _, _; split; [reflexivity|]);
    rewrite ?(proj2 HS); (split; [|split; [|reflexivity]]); rewrite ?zeros_lenN, ?N2Nat.id, ?get_len by lia; reflexivity.
Qed.
Lemma help_cmp a b x y : lenN a = sz te F_SEID -> lenN b = sz te F_SEID -> c_val te be sa_rd KFSeid a = IvFseid x -> c_val te be sa_rd KFSeid b = IvFseid y ->
  c_f_seid_cmp te be sa_rd a b = Ok (f_seid_cmp x y).
Proof.
  intros LA LB EX EY. cbn [c_val] in EX, EY. injection EX as <-. injection EY as <-.
  bases. layout 0%nat Y0. layout 5%nat Y5. rewrite B_bool in Y0. destruct Y0 as (_ & Y1 & Y2 & Y3 & Y4). destruct Y5 as (Z0 & Z1 & Z2).
  unfold c_f_seid_cmp, f_seid_cmp. cbn zeta. cbn [fs_addr fs_seid]. unfold v_addrs. cbn [ia_v4p ia_v4 ia_v6p ia_v6].
  rewrite !lb_at, !ls_at, !ln_at by lia. cbn [bind].
  destruct (v_bool (fo te F_SEID "ip_addr" + fo te IPA "v4_present") a), (v_bool (fo te F_SEID "ip_addr" + fo te IPA "v4_present") b),
    (v_bool (fo te F_SEID "ip_addr" + fo te IPA "v6_present") a), (v_bool (fo te F_SEID "ip_addr" + fo te IPA "v6_present") b); cbn [bind andb];
    repeat match goal with |- context [if ?c then _ else _] => destruct c; cbn [bind] end; reflexivity.
Qed.

(* ---------------------------------------------------------------- Node ID *)
Lemma help_from l mem : lenN mem = sz te NODE_ID -> lenN l = SA ->
  match node_id_from_sa (sa_rd l) with
  | Ok n => exists new, c_node_id_from te be sa_rd (Elsewhere l) mem = (new, Ok tt) /\ lenN new = sz te NODE_ID /\ c_val te be sa_rd KNodeId new = IvNode n
  | Err e => c_node_id_from te be sa_rd (Elsewhere l) mem = (mem, Err e)
  | UB _ => False
  end.
Proof.
  intros L LX. bases. layout 1%nat Y1. layout 2%nat Y2. destruct Y2 as (Z0 & Z1 & Z2).
  apply Forall_inv in Y1. cbn [mb_name mb_arr mb_type] in Y1. destruct Y1 as [U0 U1].
  assert (ST : forall t, t < 2 -> exists new, (_ <~ st_num te be "enum osmo_pfcp_node_id_type" (fo te NODE_ID "type") t ;; x <~ ld_sa te (Elsewhere l) ;;
      wr (fo te NODE_ID "u" + fo te "node_id.u" "ip") x) mem = (new, Ok tt) /\ lenN new = sz te NODE_ID
      /\ vn "enum osmo_pfcp_node_id_type" (fo te NODE_ID "type") new = t /\ vs (fo te NODE_ID "u" + fo te "node_id.u" "ip") new = sa_rd l).
  { intros t HT. unfold st_num. set (nt := "enum osmo_pfcp_node_id_type") in *.
    assert (LN : lenN (n2y be (N.to_nat (sz te nt)) t) = sz te nt) by (rewrite n2y_len; lia).
    destruct (wr_only (fo te NODE_ID "type") (n2y be (N.to_nat (sz te nt)) t) mem) as (m1 & W1 & G1 & O1); [lia|].
    rewrite (bind_ok_mm _ _ _ _ _ W1). rewrite LN in *. destruct O1 as [L1 O1]. cbn [ld_sa]. rewrite (bind_ok_mm _ _ _ m1 l eq_refl).
    destruct (wr_only (fo te NODE_ID "u" + fo te "node_id.u" "ip") l m1) as (m2 & W2 & G2 & [L2 O2]); [lia|]. exists m2. split; [exact W2|]. split; [congruence|].
    rewrite LX in *. split.
    - unfold v_num. rewrite O2 by lia. rewrite G1. apply y2n_n2y. rewrite N2Nat.id. apply (lt_pow t 1); [lia|exact B_nidt].
    - unfold v_sa. rewrite G2. reflexivity. }
  unfold c_node_id_from. cbn [ld_sa]. cbn zeta. rewrite (bind_ok_mm _ _ _ mem l eq_refl). cbn [ld_sa] in ST.
  destruct (sa_rd l) as [|a q|a q] eqn:Ex; cbn [node_id_from_sa].
  - reflexivity.
  - destruct (ST 0) as (new & E & LN & V1 & V2); [lia|]. exists new. split; [exact E|]. split; [exact LN|]. cbn [c_val]. rewrite V1, V2. reflexivity.
  - destruct (ST 1) as (new & E & LN & V1 & V2); [lia|]. exists new. split; [exact E|]. split; [exact LN|]. cbn [c_val]. rewrite V1, V2. reflexivity.
Qed.
Lemma help_to n x os : lenN n = sz te NODE_ID -> lenN os = SA -> c_val te be sa_rd KNodeId n = IvNode x ->
  match node_id_to_sa x (sa_rd os) with
  | Ok y => exists new, c_node_id_to te be sa_rd n os = (new, Ok tt) /\ lenN new = SA /\ sa_rd new = y
  | Err e => c_node_id_to te be sa_rd n os = (os, Err e)
  | UB _ => False
  end.
Proof.
  intros L LO EX. cbn [c_val] in EX. injection EX as <-. bases. layout 1%nat Y1. layout 2%nat Y2. destruct Y2 as (Z0 & Z1 & Z2).
  apply Forall_inv in Y1. cbn [mb_name mb_arr mb_type] in Y1. destruct Y1 as [U0 U1].
  unfold c_node_id_to. cbn zeta. rewrite ln_at by lia. rewrite !lift_ok.
  rewrite peek_at by lia. set (ip := get_at (fo te NODE_ID "u" + fo te "node_id.u" "ip") SA n) in *.
  assert (LI : lenN ip = SA) by (apply get_len; lia).
  assert (WR : exists new, wr 0 ip os = (new, Ok tt) /\ lenN new = SA /\ sa_rd new = sa_rd ip).
  { destruct (wr_only 0 ip os) as (new & W & G & [LN _]); [lia|]. exists new. split; [exact W|]. split; [congruence|]. rewrite LI in G.
    rewrite <- (get_all SA new) by congruence. rewrite G. reflexivity. }
  assert (RD : MemModel.rd 0 SA os = (os, Ok os)) by (rewrite rd_get by lia; rewrite get_all by exact LO; reflexivity).
  set (t := vn "enum osmo_pfcp_node_id_type" (fo te NODE_ID "type") n). unfold v_sa. fold ip. cbv beta.
  destruct (t =? 0); [|destruct (t =? 1); [|destruct (t =? 2); reflexivity]]; rewrite ?(bind_ok_mm _ _ _ _ _ RD); cbn [node_id_to_sa].
  - destruct (is_inet (sa_rd os)); [|reflexivity]. rewrite ?lift_ok. exact WR.
  - destruct (is_inet6 (sa_rd os)); [|reflexivity]. rewrite ?lift_ok. exact WR.
Qed.

End Help.

(* ---------------------------------------------------------------- feature bits *)

Lemma one_at a n mem i : a + n <= lenN mem -> N.of_nat i < n -> get_at (a + N.of_nat i) 1 mem = [nth i (get_at a n mem) 0].
Proof.
  intros H L. assert (G : forall (l : list N) m, (i < m)%nat -> nth i (firstn m l) 0 = nth i l 0).
  { intros l. clear L. revert i. induction l as [|x l IH]; intros i m D; [rewrite firstn_nil; reflexivity|]. destruct m; [lia|]. destruct i; [reflexivity|]. cbn. apply IH. lia. }
  unfold get_at at 2. unfold takeN, dropN. rewrite G, nth_skip by lia.
  assert (P : forall (l : list N) j, (j < length l)%nat -> firstn 1 (skipn j l) = [nth j l 0]).
  { intros l. induction l as [|x l IH]; intros j D; cbn [length] in D; [lia|]. destruct j; [reflexivity|]. cbn [skipn nth]. apply IH. lia. }
  unfold get_at, takeN, dropN. replace (N.to_nat (a + N.of_nat i)) with (N.to_nat a + i)%nat by lia. change (N.to_nat 1) with 1%nat. apply P. unfold lenN in H. lia.
Qed.
Lemma nth_error_at a n mem i : a + n <= lenN mem -> N.of_nat i < n -> nth_error (get_at a n mem) i = Some (nth i (get_at a n mem) 0).
Proof. intros H L. apply nth_error_nth'. pose proof (get_len a n mem H) as E. unfold lenN in E. lia. Qed.
Lemma byte_of pos n : pos < 8 * n -> pos / 8 < n.
Proof. intros H. apply N.div_lt_upper_bound; [discriminate|exact H]. Qed.
Lemma help_bits_get a n pos mem : a + n <= lenN mem -> pos < 8 * n -> c_bits_get a pos mem = bits_get (get_at a n mem) pos.
Proof.
  intros H L. apply byte_of in L. unfold c_bits_get, bits_get. rewrite nth_error_at by lia. rewrite peek_at by lia. cbn [bind].
  pose proof (one_at a n mem (N.to_nat (pos / 8)) H) as E. rewrite N2Nat.id in E. rewrite E by lia. reflexivity.
Qed.
Lemma list_ext (l k : list N) : length l = length k -> (forall i, (i < length l)%nat -> nth i l 0 = nth i k 0) -> l = k.
Proof. intros H E. exact (nth_ext l k 0 0 H E). Qed.
Lemma help_bits_set a n pos v mem : a + n <= lenN mem -> pos < 8 * n ->
  exists new bits, c_bits_set a pos v mem = (new, Ok tt) /\ only a n mem new /\ bits_set (get_at a n mem) pos v = Ok bits /\ get_at a n new = bits.
Proof.
  intros H L. apply byte_of in L. unfold c_bits_set, bits_set. rewrite nth_error_at by lia.
  assert (R : MemModel.rd (a + pos / 8) 1 mem = (mem, Ok (get_at (a + pos / 8) 1 mem))) by (apply rd_get; lia). rewrite (bind_ok_mm _ _ _ _ _ R).
  pose proof (one_at a n mem (N.to_nat (pos / 8)) H) as E. rewrite N2Nat.id in E. rewrite E by lia. set (b := nth (N.to_nat (pos / 8)) (get_at a n mem) 0).
  change (be_get [b]) with b. set (c := if v then _ else _).
  destruct (wr_only (a + pos / 8) [c] mem) as (new & W & G & O); [change (lenN [c]) with 1; lia|]. change (lenN [c]) with 1 in *.
  exists new. eexists. split; [exact W|]. split; [apply (only_sub a n (a + pos / 8) 1); [exact O|lia|lia]|]. split; [reflexivity|]. destruct O as [LN O].
  pose proof (get_len a n mem H) as LM. pose proof (get_len a n new ltac:(lia)) as LW.
  apply list_ext.
  - rewrite HelperProofs.upd_length. unfold lenN in *. lia.
  - intros i D. assert (Di : N.of_nat i < n) by (unfold lenN in LW; lia). pose proof (one_at a n new i ltac:(lia) Di) as X. pose proof (one_at a n mem i H Di) as Y.
    pose proof (HelperProofs.upd_nth (get_at a n mem) (N.to_nat (pos / 8)) (fun b => if v then N.lor b (2 ^ (pos mod 8)) else N.ldiff b (2 ^ (pos mod 8))) i) as U.
    rewrite (nth_error_at a n mem i H Di) in U.
    destruct (Nat.eqb_spec (N.to_nat (pos / 8)) i) as [<-|NE]; cbn [option_map] in U; apply nth_error_nth with (d := 0) in U; rewrite U.
    + rewrite N2Nat.id in X. rewrite G in X. injection X as <-. reflexivity.
    + rewrite O in X by lia. rewrite Y in X. injection X as <-. reflexivity.
Qed.
Lemma help_bits_oob a n pos v mem : lenN mem = a + n -> 8 * n <= pos -> c_bits_get a pos mem = UB OobRead /\ exists u, c_bits_set a pos v mem = (mem, UB u).
Proof.
  intros H L. assert (P : n <= pos / 8) by (apply N.div_le_lower_bound; [discriminate|exact L]).
  assert (E : peek (a + pos / 8) 1 mem = UB OobRead) by (unfold peek; destruct (N.leb_spec (a + pos / 8 + 1) (lenN mem)); [lia|reflexivity]).
  split; [unfold c_bits_get; rewrite E; reflexivity|]. unfold c_bits_set, bindm, MemModel.rd. rewrite E. eexists. reflexivity.
Qed.
