(* ReadProofs.v -- C88, C89: the decoders read what ReadSpec.v says *)
From Verif Require Import Base BaseProofs GtlvModel GtlvSpec GtlvProofs DecEncModel DecEncSpec DecEncProofs DecOrdProofs
  DecCharProofs RtProofs OrdMandProofs EncShapeProofs WfProofs GtlvInst RepSpec RepProofs CStr IesModel IesSpec IesProofs TablesModel MsgModel MsgSpec
  MsgProofs MsgEncProofs RxProofs MsgFinalProofs AcceptSpec AcceptProofs ErrnoSpec ErrnoProofs ReadSpec.

Lemma be_get_fold l : be_get l = fold_left (fun a b => a * 256 + b) l 0.
Proof. unfold be_get. generalize 0. induction l as [|b l IH]; intros a; cbn [be_get_acc fold_left]; [reflexivity|apply IH]. Qed.
Lemma octets_take v ofs n : takeN n (dropN ofs v) = octets v (N.to_nat ofs) (N.to_nat n).
Proof. reflexivity. Qed.
Lemma number_take v ofs n : be_get (takeN n (dropN ofs v)) = number v (N.to_nat ofs) (N.to_nat n).
Proof. rewrite be_get_fold. reflexivity. Qed.
Lemma number_0 v n : be_get (takeN n v) = number v 0 (N.to_nat n).
Proof. rewrite be_get_fold. reflexivity. Qed.

Lemma take_val v ofs n : 1 <= n -> ofs + n <= lenN v -> take v (lenN v) ofs n = Ok (octets v (N.to_nat ofs) (N.to_nat n)).
Proof. intros Hn H. destruct (take_self v ofs n Hn) as [[_ ->]|[C _]]; [reflexivity|lia]. Qed.
Lemma octets_len v ofs n : (ofs + n <= length v)%nat -> length (octets v ofs n) = n.
Proof. intros H. unfold octets. rewrite firstn_length, skipn_length. lia. Qed.

Lemma dec_addrs_val v ofs v4 v6 : ofs + 4 * b2 v4 + 16 * b2 v6 <= lenN v ->
  dec_addrs v (lenN v) ofs v4 v6 = Ok (addrs_at v (N.to_nat ofs) v4 v6, ofs + 4 * b2 v4 + 16 * b2 v6).
Proof.
  intros H. unfold dec_addrs, addrs_at.
  assert (S4 : forall o, o + 4 <= lenN v -> sa_from_octets (octets v (N.to_nat o) 4) = Sa4 (octets v (N.to_nat o) 4) 0).
  { intros o Ho. unfold sa_from_octets, lenN. rewrite octets_len by (unfold lenN in Ho; lia). reflexivity. }
  assert (S6 : forall o, o + 16 <= lenN v -> sa_from_octets (octets v (N.to_nat o) 16) = Sa6 (octets v (N.to_nat o) 16) 0).
  { intros o Ho. unfold sa_from_octets, lenN. rewrite octets_len by (unfold lenN in Ho; lia). reflexivity. }
  destruct v4, v6; cbn [b2] in *; rewrite ?take_val by lia; cbn [bind].
  - rewrite take_val by lia. cbn [bind]. rewrite !S4, S6 by lia. replace (N.to_nat (ofs + 4)) with (N.to_nat ofs + 4)%nat by lia. replace (ofs + 4 * 1 + 16 * 1) with (ofs + 4 + 16) by lia. reflexivity.
  - rewrite S4 by lia. replace (ofs + 4 * 1 + 16 * 0) with (ofs + 4) by lia. reflexivity.
  - rewrite take_val by lia. cbn [bind]. rewrite S6 by lia. rewrite Nat.add_0_r. replace (ofs + 4 * 0 + 16 * 1) with (ofs + 16) by lia. reflexivity.
  - replace (ofs + 4 * 0 + 16 * 0) with ofs by lia. reflexivity.
Qed.
Lemma dec_opt_val v ofs n p : 1 <= n -> ofs + n * b2 p <= lenN v ->
  dec_opt v (lenN v) ofs n p = Ok (opt_number p v (N.to_nat ofs) (N.to_nat n), ofs + n * b2 p).
Proof.
  intros Hn H. unfold dec_opt, opt_number. destruct p; cbn [b2] in *.
  - rewrite take_val by lia. cbn [bind]. rewrite be_get_fold. fold (number v (N.to_nat ofs) (N.to_nat n)). replace (ofs + n * 1) with (ofs + n) by lia. reflexivity.
  - replace (ofs + n * 0) with ofs by lia. reflexivity.
Qed.
Lemma at_ofs_val v ofs n : ofs + n <= lenN v -> at_ofs v ofs n = Ok (octets v (N.to_nat ofs) (N.to_nat n)).
Proof. intros H. pose proof (at_ofs_app_le v [] ofs n H) as E. rewrite app_nil_r in E. exact E. Qed.
Lemma padded_val v n : dec_bits_padded n v (lenN v) = Ok (IvBits (firstn (N.to_nat n) (v ++ zeros (N.to_nat n)))).
Proof.
  unfold dec_bits_padded. rewrite rdN_self by lia. cbn [bind]. do 2 f_equal. unfold takeN. rewrite firstn_app.
  destruct (N.le_gt_cases n (lenN v)).
  - replace (N.min n (lenN v)) with n by lia. rewrite N.sub_diag. replace (N.to_nat n - length v)%nat with 0%nat by (unfold lenN in *; lia). reflexivity.
  - replace (N.min n (lenN v)) with (lenN v) by lia. rewrite !firstn_all2 by (unfold lenN in *; lia). f_equal.
    replace (N.to_nat (n - lenN v)) with (N.to_nat n - length v)%nat by (unfold lenN; lia).
    assert (G : forall a b, (a <= b)%nat -> zeros a = firstn a (zeros b)) by (clear; induction a as [|a IH]; intros [|b] Hab; cbn; try reflexivity; [lia|f_equal; apply IH; lia]).
    apply G. lia.
Qed.

Lemma ie_value_self k v : k <> KActPredef -> k <> KNodeId -> k <> KNetInst -> ie_accept k v -> dec_of k v (lenN v) = Ok (ie_value k v).
Proof.
  intros H1 H2 H3. destruct k; cbn [dec_of ie_accept ie_value]; try congruence; intros Ha; clear H1 H2 H3; cbv zeta in *.
  - unfold dec_cause. rewrite Ha. change (negb (1 =? 1)) with false. cbv iota. rewrite rd_be_self by lia. cbn [bind]. rewrite number_0. reflexivity.
  - unfold dec_offending_ie. rewrite Ha. change (negb (2 =? 2)) with false. cbv iota. rewrite rd_be_self by lia. cbn [bind]. rewrite number_0. reflexivity.
  - unfold dec_8. destruct (N.ltb_spec (lenN v) 1); [lia|]. rewrite rd_be_self by lia. cbn [bind]. rewrite number_0. reflexivity.
  - unfold dec_16be. destruct (N.ltb_spec (lenN v) 2); [lia|]. rewrite rd_be_self by lia. cbn [bind]. rewrite number_0. reflexivity.
  - unfold dec_32be. destruct (N.ltb_spec (lenN v) 4); [lia|]. rewrite rd_be_self by lia. cbn [bind]. rewrite number_0. reflexivity.
  - unfold dec_3gpp_iface_type. destruct (N.ltb_spec (lenN v) 1); [lia|]. rewrite rd_be_self by lia. cbn [bind]. rewrite number_0. reflexivity.
  - unfold dec_iface. destruct (N.ltb_spec (lenN v) 1); [lia|]. rewrite rd_be_self by lia. cbn [bind]. rewrite number_0. reflexivity.
  - unfold dec_iface. destruct (N.ltb_spec (lenN v) 1); [lia|]. rewrite rd_be_self by lia. cbn [bind]. rewrite number_0. reflexivity.
  - apply padded_val.
  - unfold dec_cp_ff. destruct (N.ltb_spec (lenN v) 1); [lia|]. rewrite rdN_self by lia. reflexivity.
  - (* F-SEID *)
    rewrite !obit_b2 in Ha. unfold dec_f_seid. destruct (N.ltb_spec (lenN v) 9); [lia|]. rewrite rd_be_self by lia. cbn [bind]. rewrite be_get_1 by lia.
    rewrite at_ofs_val by lia. cbn [bind].
    change (flag (nth 0 v 0) 1) with (flag (nth 0 v 0) (2 ^ 0)). change (flag (nth 0 v 0) 2) with (flag (nth 0 v 0) (2 ^ 1)). rewrite !flag_o.
    rewrite dec_addrs_val by lia. cbn [bind fst]. rewrite be_get_fold. reflexivity.
  - (* F-TEID *)
    rewrite !obit_b2 in Ha. destruct Ha as [H1 Ha]. unfold dec_f_teid. rewrite take_val by lia. cbn [bind]. change (octets v (N.to_nat 0) (N.to_nat 1)) with (takeN 1 v). rewrite be_get_1 by lia. cbv zeta.
    change (flag (nth 0 v 0) 1) with (flag (nth 0 v 0) (2 ^ 0)). change (flag (nth 0 v 0) 2) with (flag (nth 0 v 0) (2 ^ 1)).
    change (flag (nth 0 v 0) 4) with (flag (nth 0 v 0) (2 ^ 2)). change (flag (nth 0 v 0) 8) with (flag (nth 0 v 0) (2 ^ 3)). rewrite !flag_o.
    destruct (oset v 0 2); cbn [negb].
    + destruct (oset v 0 3); cbn [b2] in Ha; [|reflexivity]. rewrite take_val by lia. cbn [bind]. rewrite be_get_fold. reflexivity.
    + rewrite take_val by lia. cbn [bind]. rewrite dec_addrs_val by lia. cbn [bind fst]. rewrite be_get_fold. reflexivity.
  - unfold dec_apply_action. destruct (N.ltb_spec (lenN v) 1); [lia|]. apply padded_val.
  - (* Outer Header Creation *)
    rewrite !obit_b2 in Ha. destruct Ha as [H2 Ha]. unfold dec_ohc. destruct (N.ltb_spec (lenN v) 2); [lia|]. rewrite rdN_self by lia. cbn [bind].
    destruct v as [|d0 [|d1 v]]; [unfold lenN in H2; cbn [length] in H2; lia|unfold lenN in H2; cbn [length] in H2; lia|]. change (takeN 2 (d0 :: d1 :: v)) with [d0; d1]. set (w := d0 :: d1 :: v) in *.
    assert (Eb : oh_bits [d0; d1] = Ok (oset w 0 0 || oset w 0 1, oset w 0 0 || oset w 0 2 || oset w 0 4,
      oset w 0 1 || oset w 0 3 || oset w 0 5, oset w 0 2 || oset w 0 3, oset w 0 6, oset w 0 7)).
    { unfold oh_bits, bits_get. cbn [N.to_nat].
      assert (Hb : forall k, k < 8 -> negb (N.land d0 (2 ^ (k mod 8)) =? 0) = oset w 0 k).
      { intros k Hk. rewrite N.mod_small by assumption. exact (flag_bit d0 k). }
      change (N.to_nat (0 / 8)) with 0%nat. change (N.to_nat (1 / 8)) with 0%nat. change (N.to_nat (2 / 8)) with 0%nat.
      change (N.to_nat (3 / 8)) with 0%nat. change (N.to_nat (4 / 8)) with 0%nat. change (N.to_nat (5 / 8)) with 0%nat.
      change (N.to_nat (6 / 8)) with 0%nat. change (N.to_nat (7 / 8)) with 0%nat. cbn [nth_error bind].
      rewrite !Hb by reflexivity. reflexivity. }
    rewrite Eb. cbn [bind]. cbv zeta. change (octets w 0 2) with [d0; d1]. clear Eb. revert Ha.
    generalize (oset w 0 0 || oset w 0 1) (oset w 0 0 || oset w 0 2 || oset w 0 4) (oset w 0 1 || oset w 0 3 || oset w 0 5) (oset w 0 2 || oset w 0 3) (oset w 0 6) (oset w 0 7).
    intros teid v4 v6 port ct st Ha. clearbody w.
    rewrite dec_opt_val by lia. cbn [bind fst snd]. rewrite dec_addrs_val by lia. cbn [bind fst snd]. rewrite dec_opt_val by lia. cbn [bind fst snd].
    rewrite dec_opt_val by lia. cbn [bind fst snd]. rewrite dec_opt_val by lia. cbn [bind fst snd].
    assert (Es : forall p n, N.to_nat (n * b2 p) = size p (N.to_nat n)) by (intros [|] n; cbn [b2 size]; lia).
    rewrite !N2Nat.inj_add, !Es. reflexivity.
  - unfold dec_ohr. destruct (N.ltb_spec (lenN v) 1); [lia|]. rewrite rd_be_self by lia. cbn [bind]. rewrite number_0.
    destruct v as [|a [|b v]]; [unfold lenN in Ha; cbn [length] in Ha; lia|reflexivity|]. rewrite !lenN_cons. destruct (N.ltb_spec 1 (1 + (1 + lenN v))); [|lia].
    rewrite at_ofs_val by (rewrite !lenN_cons; lia). reflexivity.
  - (* UE IP Address *)
    rewrite !obit_b2 in Ha. destruct Ha as [H1 Ha]. unfold dec_ue_ip. rewrite take_val by lia. cbn [bind]. change (octets v (N.to_nat 0) (N.to_nat 1)) with (takeN 1 v). rewrite be_get_1 by lia. cbv zeta.
    change (flag (nth 0 v 0) 1) with (flag (nth 0 v 0) (2 ^ 0)). change (flag (nth 0 v 0) 2) with (flag (nth 0 v 0) (2 ^ 1)).
    change (flag (nth 0 v 0) 4) with (flag (nth 0 v 0) (2 ^ 2)). change (flag (nth 0 v 0) 16) with (flag (nth 0 v 0) (2 ^ 4)). change (flag (nth 0 v 0) 32) with (flag (nth 0 v 0) (2 ^ 5)).
    change (flag (nth 0 v 0) 8) with (flag (nth 0 v 0) (2 ^ 3)). change (flag (nth 0 v 0) 64) with (flag (nth 0 v 0) (2 ^ 6)). rewrite !flag_o.
    rewrite dec_addrs_val by lia. cbn [bind fst snd]. rewrite dec_opt_val by lia. cbn [bind fst snd]. rewrite dec_opt_val by lia. cbn [bind fst snd].
    assert (Es : forall p n, N.to_nat (n * b2 p) = size p (N.to_nat n)) by (intros [|] n; cbn [b2 size]; lia).
    assert (Es1 : forall p, N.to_nat (1 * b2 p) = size p 1) by (intros [|]; reflexivity).
    rewrite !N2Nat.inj_add, !Es. reflexivity.
Qed.

(* ---------------------------------------------------------------- names *)
Lemma apn_reads labels : forall fuel tail full, (length (wire_labels labels ++ tail) < fuel)%nat -> Forall (fun l => l <> []) labels ->
  (tail = [] /\ full = join labels \/ (exists t, tail = 0 :: t) /\ full = join (labels ++ [[]])) ->
  apn_to_str fuel (wire_labels labels ++ tail) (lenN (wire_labels labels ++ tail)) = Ok (Some full).
Proof.
  induction labels as [|l ls IH]; intros fuel tail full Hf Hne Ht; (destruct fuel as [|f]; [lia|]).
  - cbn [wire_labels map concat app apn_to_str] in *. destruct Ht as [[-> ->]|[[t ->] ->]]; [reflexivity|]. rewrite lenN_cons.
    destruct (N.eqb_spec (1 + lenN t) 0); [lia|]. reflexivity.
  - inversion Hne as [|? ? Hl Hls]; subst. rewrite wire_labels_cons, <- app_assoc in *. cbn [app] in *. cbn [apn_to_str]. rewrite lenN_cons, lenN_app.
    set (X := wire_labels ls ++ tail) in *. destruct (N.eqb_spec (1 + (lenN l + lenN X)) 0); [lia|].
    assert (Hl0 : lenN l <> 0) by (destruct l; [congruence|rewrite lenN_cons; lia]). destruct (N.eqb_spec (lenN l) 0); [lia|].
    destruct (N.ltb_spec (1 + (lenN l + lenN X)) (lenN l + 1)); [lia|]. rewrite rdN_app_le by lia. rewrite takeN_all by lia. cbn [bind].
    rewrite dropN_app. replace (1 + (lenN l + lenN X) - (lenN l + 1)) with (lenN X) by lia.
    cbn [length] in Hf. rewrite app_length in Hf.
    set (full' := match ls, tail with [], [] => [] | _, [] => join ls | _, _ => join (ls ++ [[]]) end).
    assert (Ht' : tail = [] /\ full' = join ls \/ (exists t, tail = 0 :: t) /\ full' = join (ls ++ [[]])).
    { destruct Ht as [[-> _]|[[t ->] _]]; [left|right]; unfold full'; destruct ls; eauto. }
    assert (EX : apn_to_str f X (lenN X) = Ok (Some full')) by (apply IH; [fold X; lia|exact Hls|exact Ht']). rewrite EX. cbn [bind]. do 2 f_equal.
    destruct Ht as [[-> ->]|[[t ->] ->]].
    + destruct ls as [|l2 ls].
      * unfold X, full'. cbn. apply app_nil_r.
      * destruct (N.eqb_spec (lenN X) 0) as [E|E]; [|reflexivity]. unfold X in E. rewrite wire_labels_cons in E. cbn [app] in E. rewrite lenN_cons in E. lia.
    + destruct (N.eqb_spec (lenN X) 0) as [E|E]; [unfold X in E; rewrite lenN_app, lenN_cons in E; lia|]. unfold full'. destruct ls; reflexivity.
Qed.

Lemma c_string_cstr full s : c_string full s <-> s = cstr full.
Proof.
  split.
  - intros [Hn [->|(t & ->)]].
    + induction s as [|b s IH]; [reflexivity|]. cbn [cstr]. destruct (N.eqb_spec b 0) as [->|_]; [exfalso; apply Hn; left; reflexivity|]. f_equal. apply IH. intros C. apply Hn. right. exact C.
    + induction s as [|b s IH]; [reflexivity|]. cbn [cstr app]. destruct (N.eqb_spec b 0) as [->|_]; [exfalso; apply Hn; left; reflexivity|]. f_equal. apply IH. intros C. apply Hn. right. exact C.
  - intros ->. induction full as [|b full [IH1 IH2]]; [split; [intros []|left; reflexivity]|]. cbn [cstr]. destruct (N.eqb_spec b 0) as [->|Hb].
    + split; [intros []|]. right. exists full. reflexivity.
    + split; [intros [C|C]; [congruence|exact (IH1 C)]|]. destruct IH2 as [E|[t E]]; [left; rewrite <- E; reflexivity|right; exists t; cbn [app]; rewrite <- E; reflexivity].
Qed.

Lemma name_wire_text v : name_wire v -> exists full, name_text v full.
Proof.
  intros (labels & tail & E & Hn & Ht). destruct Ht as [->|[t ->]].
  - exists (join labels), labels, []. split; [exact E|]. split; [exact Hn|]. left. auto.
  - exists (join (labels ++ [[]])), labels, (0 :: t). split; [exact E|]. split; [exact Hn|]. right. split; [exists t; reflexivity|reflexivity].
Qed.

Lemma dec_name_val v s : 1 <= lenN v -> lenN v <= 254 -> name_wire v -> (name_read v s <-> dec_name v (lenN v) 254 = Ok (Some s)).
Proof.
  intros H1 H2 Hw. destruct (name_wire_text _ Hw) as (full & Hfull).
  assert (Ha : forall f, name_text v f -> apn_to_str (S (N.to_nat (lenN v))) v (lenN v) = Ok (Some f)).
  { intros f (labels & tail & E & Hn & Ht). rewrite E. apply apn_reads; [unfold lenN; lia|exact Hn|exact Ht]. }
  pose proof (Ha _ Hfull) as Ea. pose proof (apn_len _ _ _ _ Ea) as Hl. unfold dec_name. rewrite Ea. cbn [bind]. destruct (N.ltb_spec 254 (lenN full + 1)); [lia|]. split.
  - intros (f & Hf & Hc). apply Ha in Hf. rewrite Ea in Hf. injection Hf as <-. apply c_string_cstr in Hc. rewrite Hc. reflexivity.
  - intros E. injection E as <-. exists full. split; [exact Hfull|]. apply c_string_cstr. reflexivity.
Qed.

Lemma cstr_take : forall (v : list N) n (rest : list N) m, c_strlen (v ++ rest) = Ok m -> n <= lenN v -> takeN (N.min n m) (v ++ rest) = cstr (takeN n v).
Proof.
  induction v as [|b v IH]; intros n rest m E Hn.
  - rewrite lenN_nil in Hn. replace (N.min n m) with 0 by lia. replace n with 0 by lia. reflexivity.
  - cbn [app c_strlen] in E. destruct (N.eq_dec n 0) as [->|Hn0]; [replace (N.min 0 m) with 0 by lia; reflexivity|].
    replace (takeN n (b :: v)) with (b :: takeN (n - 1) v) by (unfold takeN; replace (N.to_nat n) with (S (N.to_nat (n - 1))) by lia; reflexivity).
    cbn [cstr]. destruct (b =? 0).
    + injection E as <-. replace (N.min n 0) with 0 by lia. reflexivity.
    + apply bind_ok in E as (m' & E & Em). injection Em as <-. rewrite lenN_cons in Hn.
      rewrite <- (IH (n - 1) rest m' E) by lia. unfold takeN. replace (N.to_nat (N.min n (m' + 1))) with (S (N.to_nat (N.min (n - 1) m'))) by lia. reflexivity.
Qed.

Theorem ie_read_iff k v rest x : (k = KActPredef -> In 0 rest) ->
  (dec_of k (v ++ rest) (lenN v) = Ok x <-> ie_accept k v /\ ie_reads k v x).
Proof.
  intros Hr. destruct (kind_dec k) as [->|Hk].
  { cbn [dec_of ie_accept ie_reads]. destruct (strlen_app_nul v rest (Hr eq_refl)) as (n & E & _). unfold dec_act_predef, osmo_strlcpy. rewrite E. cbn [bind].
    replace (N.min 256 (lenN v + 1) - 1) with (N.min 255 (lenN v)) by lia. rewrite (cstr_take v _ rest n E) by lia.
    assert (Et : takeN (N.min 255 (lenN v)) v = firstn 255 v).
    { unfold takeN. destruct (N.le_gt_cases 255 (lenN v)); [replace (N.min 255 (lenN v)) with 255 by lia; reflexivity|].
      rewrite !firstn_all2 by (unfold lenN in *; lia). reflexivity. }
    rewrite Et. split.
    - intros [= <-]. split; [exact I|]. exists (cstr (firstn 255 v)). split; [apply c_string_cstr; reflexivity|reflexivity].
    - intros [_ (s & Hc & ->)]. apply c_string_cstr in Hc. rewrite Hc. reflexivity. }
  destruct (dec_safe k v rest Hk) as [_ ->].
  pose proof (ie_accept_self k v Hk) as Hacc. unfold okd in Hacc.
  assert (G : ie_accept k v -> (dec_of k v (lenN v) = Ok x <-> ie_reads k v x)).
  { intros Ha. assert (Hval : k <> KNodeId -> k <> KNetInst -> (dec_of k v (lenN v) = Ok x <-> x = ie_value k v)).
    { intros A B. rewrite (ie_value_self k v Hk A B Ha). split; [intros [= <-]; reflexivity|intros ->; reflexivity]. }
    destruct k; try congruence; try (apply Hval; discriminate); clear Hval Hacc.
    - cbn [dec_of ie_reads ie_accept] in *. destruct v as [|t a]; [contradiction|]. unfold dec_node_id. rewrite lenN_cons. destruct (N.ltb_spec (1 + lenN a) 1); [lia|].
      rewrite rd_be_self by (rewrite lenN_cons; lia). rewrite be_get_1 by (rewrite lenN_cons; lia). cbn [nth bind]. replace (1 + lenN a - 1) with (lenN a) by lia.
      destruct t as [|[p|[p|p|]|]]; try contradiction.
      + change (0 =? 0) with true. cbv iota. rewrite Ha. change (negb (4 =? 4)) with false. cbv iota. rewrite at_ofs_val by (rewrite lenN_cons; lia). cbn [bind].
        change (octets (0 :: a) (N.to_nat 1) (N.to_nat 4)) with (firstn 4 a). rewrite firstn_all2 by (unfold lenN in Ha; lia). unfold sa_from_octets. rewrite Ha.
        split; [intros [= <-]; reflexivity|intros ->; reflexivity].
      + change (2 =? 0) with false. change (2 =? 1) with false. change (2 =? 2) with true. cbv iota. destruct Ha as [Hlen Hw].
        destruct (N.ltb_spec (lenN a) 1); [lia|]. destruct (N.ltb_spec 254 (lenN a)); [lia|]. cbn [orb]. change (dropN 1 (2 :: a)) with a.
        pose proof (fun s => dec_name_val a s ltac:(lia) ltac:(lia) Hw) as Hn. destruct (dec_name a (lenN a) 254) as [[s|]|e|u] eqn:En; cbn [bind].
        * split; [intros [= <-]; exists s; split; [apply Hn; reflexivity|reflexivity]|]. intros (s' & Hs & ->). apply Hn in Hs. injection Hs as ->. reflexivity.
        * split; [discriminate|]. intros (s' & Hs & ->). apply Hn in Hs. discriminate.
        * split; [discriminate|]. intros (s' & Hs & ->). apply Hn in Hs. discriminate.
        * split; [discriminate|]. intros (s' & Hs & ->). apply Hn in Hs. discriminate.
      + change (1 =? 0) with false. change (1 =? 1) with true. cbv iota. rewrite Ha. change (negb (16 =? 16)) with false. cbv iota. rewrite at_ofs_val by (rewrite lenN_cons; lia). cbn [bind].
        change (octets (1 :: a) (N.to_nat 1) (N.to_nat 16)) with (firstn 16 a). rewrite firstn_all2 by (unfold lenN in Ha; lia). unfold sa_from_octets. rewrite Ha.
        split; [intros [= <-]; reflexivity|intros ->; reflexivity].
    - cbn [dec_of ie_reads ie_accept] in *. destruct Ha as [Hlen Hw]. unfold dec_network_inst. destruct (N.ltb_spec (lenN v) 1); [lia|]. destruct (N.ltb_spec 254 (lenN v)); [lia|]. cbn [orb].
      pose proof (fun s => dec_name_val v s ltac:(lia) ltac:(lia) Hw) as Hn. destruct (dec_name v (lenN v) 254) as [[s|]|e|u] eqn:En; cbn [bind].
      * split; [intros [= <-]; exists s; split; [apply Hn; reflexivity|reflexivity]|]. intros (s' & Hs & ->). apply Hn in Hs. injection Hs as ->. reflexivity.
      * split; [discriminate|]. intros (s' & Hs & ->). apply Hn in Hs. discriminate.
      * split; [discriminate|]. intros (s' & Hs & ->). apply Hn in Hs. discriminate.
      * split; [discriminate|]. intros (s' & Hs & ->). apply Hn in Hs. discriminate. }
  split.
  - intros H. assert (Ha : ie_accept k v) by (apply Hacc; exists x; exact H). split; [exact Ha|apply G; assumption].
  - intros [Ha Hx]. apply G; assumption.
Qed.

(* ---------------------------------------------------------------- messages *)
Definition read_iff (p : pcoding) : Prop := all_std p -> all_tables table_ok [ptab p] ->
  forall v rest x, bytes_ok v -> In 0 rest -> (dec_coding (ptab p) t16l16v false (v ++ rest) (lenN v) = Ok x <-> content_reads (sh p) v x).

Lemma Forall2_iff_in {A B} (R R' : A -> B -> Prop) l : (forall x y, In x l -> (R x y <-> R' x y)) -> forall s, (Forall2 R l s <-> Forall2 R' l s).
Proof.
  induction l as [|x l IH]; intros H s; split; intros F; inversion F as [|? y ? s' F1 F2]; subst; constructor.
  - apply H; [left; reflexivity|exact F1].
  - apply IH; [|exact F2]. intros a b Ha. apply H. right. exact Ha.
  - apply H; [left; reflexivity|exact F1].
  - apply IH; [|exact F2]. intros a b Ha. apply H. right. exact Ha.
Qed.

Lemma struct_reads_iff R l v slots : struct_reads R l v slots <->
  exists items, ie_seq v items /\ Forall2 (fun q s => occ_ok (occ_of q) (lenN s) /\ Forall2 (R q) (values_of (iei_of q) items) s) l slots.
Proof.
  unfold struct_reads. split; intros (items & A & B); exists items; (split; [exact A|]).
  - revert slots B. induction l as [|q l IH]; intros [|s slots] B; try contradiction; [constructor|]. destruct B as (B1 & B2 & B3). constructor; [split; assumption|apply IH, B3].
  - induction B as [|q s l slots [B1 B2] B IH]; [exact I|]. split; [exact B1|]. split; [exact B2|exact IH].
Qed.

Lemma body_reads_iff ies d rest slots : Forall read_iff ies -> Forall all_std ies -> all_tables table_ok (map ptab ies) -> bytes_ok d -> In 0 rest ->
  (gtlvs_decode t16l16v false (Some (map ptab ies)) (d ++ rest) (lenN d) = Ok slots <-> body_reads (map sh ies) d slots).
Proof.
  intros Hp Hs Ht Hb Hr. pose proof Ht as [Ht0 _].
  rewrite (decode_unordered_iff NulTail); [|exact t16_cfg_ok|exact NulTail_closed|exact Hr|apply tabs_local|apply tabs_cfgs|apply Ht0|apply Ht0|apply Ht0].
  unfold body_reads. rewrite struct_reads_iff.
  assert (Hmem : forall items, Forall (fun it => bytes_ok (snd it)) items -> rep_items rep_t16l16v items ->
    (Forall2 (member_of t16l16v rest items) (map ptab ies) slots <->
     Forall2 (fun q s => occ_ok (occ_of q) (lenN s) /\ Forall2 (content_reads q) (values_of (iei_of q) (map plain_item items)) s) (map sh ies) slots)).
  { intros items Hbi Hri. rewrite !Forall2_map_l. apply Forall2_iff_in. intros p s Hin. rewrite Forall_forall in Hp, Hs. pose proof (all_std_head _ (Hs p Hin)) as Hh.
    unfold member_of. rewrite head_ptab, sh_occ, (values_items p items Hh Hri), Forall2_map_l. rewrite (occ_head_ok _ _ Hh).
    assert (E : forall s, Forall2 (fun it v => dec_coding (ptab p) t16l16v false (snd it ++ rest) (lenN (snd it)) = Ok v) (items_for (ptab p) items) s <->
      Forall2 (fun it v => content_reads (sh p) (snd it) v) (items_for (ptab p) items) s).
    { apply Forall2_iff_in. intros it y Hi. apply (Hp p Hin (Hs p Hin) (ptab_tables_one _ _ Ht Hin)); [|exact Hr].
      unfold items_for in Hi. apply filter_In in Hi. rewrite Forall_forall in Hbi. apply Hbi, Hi. }
    rewrite (E s). reflexivity. }
  split.
  - intros (items & Hpa & HF). apply (parse_iff t16l16v rep_t16l16v hdr_t16l16v d items t16l16v_ok t16l16v_rt t16l16v_inv Hb) in Hpa. destruct Hpa as [Hri Ed].
    exists (map plain_item items). split; [rewrite Ed; apply ser_plain, Hri|]. apply Hmem; [|exact Hri|exact HF]. rewrite Ed in Hb. apply (bytes_items (fun _ => True)), Hb.
  - intros (l & Hseq & HF). destruct (plain_ser _ _ Hseq) as (items & Hri & Ed & ->). exists items.
    split; [apply (parse_iff t16l16v rep_t16l16v hdr_t16l16v d items t16l16v_ok t16l16v_rt t16l16v_inv Hb); split; assumption|].
    apply Hmem; [|exact Hri|exact HF]. rewrite Ed in Hb. apply (bytes_items (fun _ => True)), Hb.
Qed.

Lemma read_iff_all p : read_iff p.
Proof.
  induction p as [h k|h l IH] using pcoding_ind'; intros Hs Ht v rest x Hb Hr.
  - cbn [ptab sh content_reads dec_coding leaf_of lf_dec]. split.
    + intros H. apply bind_ok in H as (y & Hy & H). injection H as <-. apply ie_read_iff in Hy; [|intros _; exact Hr]. destruct Hy as [A B]. split; [exact A|]. exists y. auto.
    + intros [A (y & B & ->)]. assert (Hy : dec_of k (v ++ rest) (lenN v) = Ok y) by (apply ie_read_iff; [intros _; exact Hr|split; assumption]). rewrite Hy. reflexivity.
  - cbn [sh content_reads]. destruct Hs as [_ Hs]. apply fold_right_and_Forall in Hs.
    destruct Ht as [_ Ht]. inversion Ht as [|? ? Ht1 _]; subst. cbn [ptab] in Ht1.
    assert (Hal : all_tables table_ok (map ptab l)).
    { cbn in Ht1. destruct Ht1 as [A B]. split; [exact A|]. apply fold_right_and_Forall in B. exact B. }
    pose proof (fun slots => body_reads_iff l v rest slots IH Hs Hal Hb Hr) as HB. cbn [ptab dec_coding gtlvs_decode] in *.
    change (map (fun d => mkEntry (head d) (dec_coding d)) (map ptab l)) with (map entry_of (map ptab l)) in *. split.
    + intros H. apply bind_ok in H as (s & H1 & H2). injection H2 as <-. exists s. split; [reflexivity|]. apply HB. exact H1.
    + intros (s & -> & H). apply HB in H. rewrite H. reflexivity.
Qed.

Theorem message_reads t l d rest slots : In (t, l) s_messages -> bytes_ok d -> In 0 rest ->
  (decode_tlv t (d ++ rest) (lenN d) = Ok slots <-> body_reads l d slots).
Proof.
  intros Hl Hb Hr. apply spec_tables in Hl. destruct Hl as (ies & Ht & -> & Hs). unfold decode_tlv, msg_table. rewrite Ht. cbn [option_map].
  apply body_reads_iff; [apply Forall_forall; intros p _; apply read_iff_all|exact Hs|apply (tables_are_good _ _ Ht)|exact Hb|exact Hr].
Qed.

(* ---------------------------------------------------------------- headers *)
Lemma version_bits f : f < 256 ->
  f / 32 = 4 * (if N.testbit f 7 then 1 else 0) + 2 * (if N.testbit f 6 then 1 else 0) + (if N.testbit f 5 then 1 else 0).
Proof.
  intros H. assert (C : forallb (fun n => let f := N.of_nat n in
    f / 32 =? 4 * (if N.testbit f 7 then 1 else 0) + 2 * (if N.testbit f 6 then 1 else 0) + (if N.testbit f 5 then 1 else 0)) (seq 0 256) = true) by (vm_compute; reflexivity).
  rewrite forallb_forall in C. specialize (C (N.to_nat f)). cbv zeta in C. rewrite N2Nat.id in C. apply N.eqb_eq. apply C. apply in_seq. lia.
Qed.
Lemma announced_get q : 4 <= lenN q -> be_get (takeN 2 (dropN 2 q)) + 4 = announced q.
Proof.
  intros H. destruct q as [|a [|b [|x [|y q]]]]; try (unfold lenN in H; cbn [length] in H; lia). unfold announced. cbn [nth]. change (takeN 2 (dropN 2 (a :: b :: x :: y :: q))) with [x; y].
  unfold be_get. cbn [be_get_acc]. lia.
Qed.
Lemma byte_nth q i : bytes_ok q -> nth i q 0 < 256.
Proof.
  intros H. destruct (Nat.lt_ge_cases i (length q)) as [L|L]; [|rewrite nth_overflow by exact L; lia]. unfold bytes_ok in H. rewrite Forall_forall in H. apply H. apply nth_In, L.
Qed.
Lemma nth_skip (l : list N) : forall n i d, nth i (skipn n l) d = nth (n + i)%nat l d.
Proof. induction l as [|x l IH]; intros [|n] i d; try reflexivity; [destruct i; reflexivity|]. cbn [skipn Nat.add nth]. apply IH. Qed.
Definition read_header (q : list N) : res dechdr :=
  if (lenN q <? hdr_size_of q) || (lenN q <? announced q) || (mp_bit q && negb (s_bit q)) then Err (header_errno q)
  else Ok (mkDh (header_of q) (announced q) (hdr_size_of q) ((announced q + 2 ^ 32 - hdr_size_of q) mod 2 ^ 32)).
Lemma header_exact q rest : bytes_ok q -> decode_header (q ++ rest) (lenN q) = read_header q.
Proof.
  intros Hb. rewrite decode_header_data. unfold hdr_of, read_header, header_errno, header_of.
  assert (F1 : flag (nth 0 q 0) 1 = s_bit q) by exact (flag_bit (nth 0 q 0) 0). assert (F2 : flag (nth 0 q 0) 2 = mp_bit q) by exact (flag_bit (nth 0 q 0) 1).
  rewrite F1, F2. cbv zeta. assert (Hs : hdr_size (s_bit q) = hdr_size_of q) by reflexivity. rewrite Hs.
  assert (H8 : 8 <= hdr_size_of q) by (unfold hdr_size_of; destruct (s_bit q); lia).
  destruct (N.ltb_spec (lenN q) (hdr_size_of q)) as [E1|E1]; cbn [orb].
  { destruct (N.ltb_spec (lenN q) 4); [destruct (N.leb_spec (hdr_size_of q) (lenN q)); [lia|reflexivity]|]. destruct (N.leb_spec (hdr_size_of q) (lenN q)); [lia|reflexivity]. }
  destruct (N.ltb_spec (lenN q) 4); [lia|]. rewrite announced_get by lia. destruct (N.leb_spec (hdr_size_of q) (lenN q)); [|lia]. cbn [andb].
  destruct (N.ltb_spec (lenN q) (announced q)) as [E2|E2]; cbn [orb]; [reflexivity|].
  rewrite (version_bits _ (byte_nth q 0 Hb)).
  assert (N1 : be_get (takeN 3 (dropN 4 q)) = number q 4 3) by (rewrite number_take; reflexivity).
  assert (N2 : be_get (takeN 8 (dropN 4 q)) = number q 4 8) by (rewrite number_take; reflexivity).
  assert (N3 : be_get (takeN 3 (dropN 12 q)) = number q 12 3) by (rewrite number_take; reflexivity). rewrite N1, N2, N3.
  destruct (s_bit q) eqn:Es; cbn [negb andb].
  - rewrite andb_false_r. assert (N4 : be_get (takeN 1 (dropN 15 q)) = nth 15 q 0).
    { rewrite be_get_1; [unfold dropN; change (N.to_nat 15) with 15%nat; rewrite nth_skip; reflexivity|].
      rewrite lenN_dropN. unfold hdr_size_of in E1. rewrite Es in E1. lia. }
    rewrite N4. reflexivity.
  - rewrite andb_true_r. destruct (mp_bit q); reflexivity.
Qed.
Lemma bad_header_bool q : bad_header q <-> (lenN q <? hdr_size_of q) || (lenN q <? announced q) || (mp_bit q && negb (s_bit q)) = true.
Proof.
  unfold bad_header. assert (H8 : 8 <= hdr_size_of q) by (unfold hdr_size_of; destruct (s_bit q); lia).
  destruct (N.ltb_spec (lenN q) (hdr_size_of q)); cbn [orb]; [split; [reflexivity|lia]|]. destruct (N.ltb_spec (lenN q) (announced q)); cbn [orb]; [split; [reflexivity|lia]|].
  destruct (mp_bit q), (s_bit q); cbn [andb negb]; split; intros H1; try discriminate; try reflexivity; auto; destruct H1 as [?|[?|[?|[? ?]]]]; try lia; discriminate.
Qed.
Theorem header_error q rest e : bytes_ok q -> (decode_header (q ++ rest) (lenN q) = Err e <-> bad_header q /\ e = header_errno q).
Proof.
  intros Hb. rewrite (header_exact q rest Hb), bad_header_bool. unfold read_header. destruct (_ || _ || _).
  - split; [intros [= <-]; auto|intros [_ ->]; reflexivity].
  - split; [discriminate|intros [C _]; discriminate].
Qed.
Theorem header_read q rest d : bytes_ok q -> (decode_header (q ++ rest) (lenN q) = Ok d <->
  ~ bad_header q /\ dh_h d = header_of q /\ dh_len d = announced q /\ dh_ofs d = hdr_size_of q /\
  dh_tlv d = (announced q + 2 ^ 32 - hdr_size_of q) mod 2 ^ 32).
Proof.
  intros Hb. rewrite (header_exact q rest Hb), bad_header_bool. unfold read_header. destruct (_ || _ || _).
  - split; [discriminate|intros [C _]; congruence].
  - split; [intros [= <-]; split; [discriminate|]; auto|]. intros (_ & A & B & C & D). destruct d as [x1 x2 x3 x4]. cbn [dh_h dh_len dh_ofs dh_tlv] in *. subst. reflexivity.
Qed.

(* ---------------------------------------------------------------- whole messages *)
Lemma framed_exact p : framed p -> bytes_ok p ->
  outcome p = match decode_tlv (nth 1 p 0) (skipn (N.to_nat (hdr_size_of p)) p ++ [0]) (lenN (skipn (N.to_nat (hdr_size_of p)) p)) with
              | Ok ies => RxMsg (header_of p) ies | Err e => RxDrop e | UB u => RxUB u end.
Proof.
  intros (H1 & H2 & H3) Hb. unfold outcome. pose proof (header_exact p [] Hb) as E. rewrite app_nil_r in E. rewrite E. unfold read_header.
  destruct (_ || _ || _) eqn:C; [apply bad_header_bool in C; unfold bad_header in C; assert (H8 : 8 <= hdr_size_of p) by (unfold hdr_size_of; destruct (s_bit p); lia);
    destruct C as [C|[C|[C|[C1 C2]]]]; [lia|lia|lia|rewrite (H3 C1) in C2; discriminate]|].
  cbn [dh_h dh_len dh_ofs]. change (hd_type (header_of p)) with (nth 1 p 0). unfold dropN. replace (announced p - hdr_size_of p) with (lenN (skipn (N.to_nat (hdr_size_of p)) p)); [reflexivity|].
  unfold lenN. rewrite skipn_length. unfold lenN in *. lia.
Qed.
Theorem message_outcome p l : framed p -> bytes_ok p -> In (nth 1 p 0, l) s_messages ->
  let body := skipn (N.to_nat (hdr_size_of p)) p in
  (forall h ies, outcome p = RxMsg h ies <-> h = header_of p /\ body_reads l body ies) /\
  (forall e, outcome p = RxDrop e <-> body_error l body e).
Proof.
  intros Hf Hb Hl body. rewrite (framed_exact p Hf Hb). fold body.
  assert (Hbb : bytes_ok body) by (apply (bytes_ok_dropN (hdr_size_of p) p Hb)). assert (Hr : In 0 [0]) by (left; reflexivity).
  pose proof (fun s => message_reads (nth 1 p 0) l body [0] s Hl Hbb Hr) as HR. pose proof (fun e => message_error (nth 1 p 0) l body [0] e Hl Hbb Hr) as HE. split.
  - intros h ies. rewrite <- HR. destruct (decode_tlv _ _ _) as [s|e|u]; (split; [|intros [-> ?]; congruence]); intros H; try discriminate. injection H as <- <-. auto.
  - intros e. rewrite <- HE. destruct (decode_tlv _ _ _) as [s|e'|u]; (split; [|intros ?; congruence]); intros H; try discriminate. congruence.
Qed.
Theorem message_unsupported p : framed p -> bytes_ok p -> (forall l, ~ In (nth 1 p 0, l) s_messages) -> outcome p = RxDrop ENOTSUP.
Proof. intros Hf Hb Hl. rewrite (framed_exact p Hf Hb). rewrite (proj1 (message_unknown _ Hl)). reflexivity. Qed.

(* ---------------------------------------------------------------- datagrams *)
Lemma s_messages_known t : (exists l, In (t, l) s_messages) \/ (forall l, ~ In (t, l) s_messages).
Proof.
  generalize s_messages. intros m. induction m as [|[t' l'] m IH]; [right; intros l []|]. destruct (N.eq_dec t' t) as [->|Hn]; [left; exists l'; left; reflexivity|].
  destruct IH as [[l H]|H]; [left; exists l; right; exact H|right]. intros l [E|E]; [congruence|exact (H l E)].
Qed.
Lemma message_means_iff p o : framed p -> bytes_ok p -> (outcome p = o <-> message_means p o).
Proof.
  intros Hf Hb. split.
  - intros <-. destruct (s_messages_known (nth 1 p 0)) as [[l Hl]|Hn].
    + destruct (message_outcome p l Hf Hb Hl) as [HM HD]. destruct (outcome_framed p Hf) as [(h & ies & E)|(e & E)].
      * rewrite E. apply HM in E. destruct E as [-> E]. exact (mm_msg p l ies Hl E).
      * rewrite E. apply HD in E. exact (mm_drop p l e Hl E).
    + rewrite (message_unsupported p Hf Hb Hn). apply mm_type. exact Hn.
  - intros [l ies Hl H|l e Hl H|Hn].
    + apply (proj1 (message_outcome p l Hf Hb Hl)). split; [reflexivity|exact H].
    + apply (proj2 (message_outcome p l Hf Hb Hl)). exact H.
    + exact (message_unsupported p Hf Hb Hn).
Qed.
Lemma rx_data_bad_code q rest : bytes_ok q -> q <> [] -> bad_header q -> rx_data q rest = [RxBad (header_errno q)].
Proof.
  intros Hb Hq H. unfold rx_data. destruct q as [|b q']; [congruence|]. set (q := b :: q') in *. change (length q) with (S (length q')). cbn [rx_loop].
  dif X; [unfold q in X; rewrite lenN_cons in X; lia|]. rewrite (proj2 (header_error q rest (header_errno q) Hb) (conj H eq_refl)). reflexivity.
Qed.
Lemma rx_data_list ps : forall q rest, In 0 rest -> Forall framed ps -> Forall bytes_ok ps -> rx_data (concat ps ++ q) rest = map outcome ps ++ rx_data q rest.
Proof.
  induction ps as [|p ps IH]; intros q rest Hr Hf Hb; [reflexivity|]. inversion Hf; subst. inversion Hb; subst. cbn [concat map app]. rewrite <- app_assoc.
  rewrite rx_data_message; [|exact Hr|assumption|apply message_framed; assumption]. rewrite IH by assumption. reflexivity.
Qed.
Theorem datagram_means ps q tail os : Forall framed ps -> Forall bytes_ok ps -> bytes_ok q -> lenN (concat ps ++ q) < alloc_size ->
  (q = [] /\ tail = [] \/ q <> [] /\ bad_header q /\ tail = [RxBad (header_errno q)]) ->
  (rx_datagram (concat ps ++ q) = os <-> exists l, Forall2 message_means ps l /\ os = l ++ tail).
Proof.
  intros Hf Hb Hq Hl Ht. unfold rx_datagram. rewrite takeN_all by lia. rewrite rx_data_list; [|apply in_zeros; lia|exact Hf|exact Hb].
  generalize (zeros (N.to_nat (alloc_size - lenN (concat ps ++ q)))). intros rest.
  assert (Et : rx_data q rest = tail).
  { destruct Ht as [[-> ->]|(Hq' & Hbad & ->)]; [reflexivity|]. apply rx_data_bad_code; assumption. }
  rewrite Et. clear Et Ht Hl. split.
  - intros <-. exists (map outcome ps). split; [|reflexivity]. induction Hf as [|p ps Hp Hf IH]; [constructor|]. inversion Hb; subst. cbn [map].
    constructor; [apply message_means_iff; auto|apply IH; assumption].
  - intros (l & H & ->). f_equal. revert Hf Hb. induction H as [|p o ps l Hpo H IH]; intros Hf Hb; [reflexivity|]. inversion Hf; subst. inversion Hb; subst. cbn [map].
    f_equal; [apply message_means_iff; assumption|apply IH; assumption].
Qed.
