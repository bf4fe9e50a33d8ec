(* IesProofs.v -- PFCP IE codecs: memory safety, locality, wire format and round trip, range of decoded values *)
From Verif Require Import Base BaseProofs GtlvModel DecEncModel DecEncSpec CStr GtlvInst IesModel IesSpec.

(* ---------------------------------------------------------------- reading *)

Lemma rdN_ok n m : n <= lenN m -> rdN n m = Ok (takeN n m).
Proof. intros H. unfold rdN. destruct (N.leb_spec n (lenN m)); [reflexivity|lia]. Qed.
Lemma rdN_app_le n v rest : n <= lenN v -> rdN n (v ++ rest) = Ok (takeN n v).
Proof. intros H. rewrite rdN_ok by (rewrite lenN_app; lia). rewrite takeN_app_le by exact H. reflexivity. Qed.
Lemma rd_be_ok n m : n <= lenN m -> rd_be n m = Ok (be_get (takeN n m)).
Proof. intros H. unfold rd_be. rewrite rdN_ok by exact H. reflexivity. Qed.
Lemma rd_be_app_le n v rest : n <= lenN v -> rd_be n (v ++ rest) = Ok (be_get (takeN n v)).
Proof. intros H. unfold rd_be. rewrite rdN_app_le by exact H. reflexivity. Qed.
Lemma at_ofs_app_le v rest ofs n : ofs + n <= lenN v -> at_ofs (v ++ rest) ofs n = Ok (takeN n (dropN ofs v)).
Proof. intros H. unfold at_ofs. rewrite dropN_app_le by lia. apply rdN_app_le. rewrite lenN_dropN. lia. Qed.

(* the result of a decoder that stays inside of its value: same as without any memory behind, and defined *)
Definition same_def {A} (f : list N -> res A) (v : list N) : Prop :=
  forall rest, f (v ++ rest) = f v /\ is_ub (f v) = false.
Lemma same_def_ret {A} (a : res A) v : is_ub a = false -> same_def (fun _ => a) v.
Proof. intros H rest. auto. Qed.
Lemma same_def_bind {A B} (f : list N -> res A) (g : list N -> A -> res B) v :
  same_def f v -> (forall x, f v = Ok x -> same_def (fun m => g m x) v) -> same_def (fun m => x <- f m ;; g m x) v.
Proof.
  intros Hf Hg rest. destruct (Hf rest) as [E U]. rewrite E. destruct (f v) as [x|e|u] eqn:Ex; cbn [bind]; auto.
  apply (Hg x eq_refl).
Qed.
Lemma same_def_if {A} (b : bool) (f g : list N -> res A) v :
  (b = true -> same_def f v) -> (b = false -> same_def g v) -> same_def (fun m => if b then f m else g m) v.
Proof. destruct b; auto. Qed.
Lemma same_def_rdN n v : n <= lenN v -> same_def (rdN n) v.
Proof. intros H rest. rewrite rdN_app_le, rdN_ok by exact H. auto. Qed.
Lemma same_def_rd_be n v : n <= lenN v -> same_def (rd_be n) v.
Proof. intros H rest. rewrite rd_be_app_le, rd_be_ok by exact H. auto. Qed.
Lemma same_def_at_ofs ofs n v : ofs + n <= lenN v -> same_def (fun m => at_ofs m ofs n) v.
Proof.
  intros H rest. rewrite at_ofs_app_le by exact H. pose proof (at_ofs_app_le v [] ofs n H) as E. rewrite app_nil_r in E.
  rewrite E. auto.
Qed.
Lemma same_def_take ofs n v : 1 <= n -> same_def (fun m => take m (lenN v) ofs n) v.
Proof.
  intros H. unfold take. apply same_def_if; intros E; [apply same_def_ret; reflexivity|]. apply same_def_at_ofs. lia.
Qed.
Lemma same_def_ok {A} (x : A) v : same_def (fun _ => Ok x) v.
Proof. apply same_def_ret. reflexivity. Qed.
Lemma same_def_err {A} e v : same_def (A := A) (fun _ => Err e) v.
Proof. apply same_def_ret. reflexivity. Qed.

Lemma take_len m len ofs n b : take m len ofs n = Ok b -> lenN b = n.
Proof.
  unfold take, at_ofs, rdN. destruct (len - ofs <? n); [discriminate|].
  destruct (N.leb_spec n (lenN (dropN ofs m))); [|discriminate]. intros E. injection E as <-. apply lenN_takeN. assumption.
Qed.

Lemma same_def_addrs ofs v4 v6 v : same_def (fun m => dec_addrs m (lenN v) ofs v4 v6) v.
Proof.
  unfold dec_addrs. apply same_def_bind.
  - apply same_def_if; intros _; [|apply same_def_ok]. apply same_def_bind; [apply same_def_take; lia|intros; apply same_def_ok].
  - intros [a4 o4] _. apply same_def_bind.
    + apply same_def_if; intros _; [|apply same_def_ok]. apply same_def_bind; [apply same_def_take; lia|intros; apply same_def_ok].
    + intros [a6 o6] _. apply same_def_ok.
Qed.
Lemma same_def_opt ofs n p v : 1 <= n -> same_def (fun m => dec_opt m (lenN v) ofs n p) v.
Proof.
  intros H. unfold dec_opt. apply same_def_if; intros _; [|apply same_def_ok].
  apply same_def_bind; [apply same_def_take, H|intros; apply same_def_ok].
Qed.

(* ---------------------------------------------------------------- names *)

Lemma same_def_apn fuel v : (length v < fuel)%nat -> same_def (fun m => apn_to_str fuel m (lenN v)) v.
Proof.
  revert v. induction fuel as [|f IH]; intros v Hf; [lia|]. cbn [apn_to_str]. apply same_def_if; intros E0; [apply same_def_ok|].
  destruct v as [|lab v']; [discriminate|]. intros rest. cbn [app]. rewrite lenN_cons.
  destruct (lab =? 0) eqn:E1; [auto|]. destruct (1 + lenN v' <? lab + 1) eqn:E2; [auto|].
  rewrite rdN_app_le, rdN_ok by lia. cbn [bind].
  rewrite dropN_app_le by lia.
  assert (E : 1 + lenN v' - (lab + 1) = lenN (dropN lab v')) by (rewrite lenN_dropN; lia).
  rewrite E.
  assert (Hl : (length (dropN lab v') < f)%nat).
  { cbn [length] in Hf. assert (lenN (dropN lab v') <= lenN v') by (rewrite lenN_dropN; lia). unfold lenN in *. lia. }
  destruct (IH (dropN lab v') Hl rest) as [E3 U]. rewrite E3.
  destruct (apn_to_str f (dropN lab v') (lenN (dropN lab v'))) as [[s|]|e|u]; auto; discriminate.
Qed.

(* the name is shorter than its encoding *)
Lemma apn_len fuel m rest s : apn_to_str fuel m rest = Ok (Some s) -> lenN s <= rest - 1.
Proof.
  revert m rest s. induction fuel as [|f IH]; intros m rest s; [discriminate|]. cbn [apn_to_str].
  destruct (N.eqb_spec rest 0); [intros E; injection E as <-; change (lenN (@nil N)) with 0; lia|].
  destruct m as [|lab m']; [discriminate|]. destruct (lab =? 0) eqn:E1; [intros E; injection E as <-; change (lenN (@nil N)) with 0; lia|].
  destruct (N.ltb_spec rest (lab + 1)); [discriminate|]. unfold rdN. destruct (N.leb_spec lab (lenN m')); [|discriminate].
  cbn [bind]. destruct (apn_to_str f (dropN lab m') (rest - (lab + 1))) as [[s'|]|e|u] eqn:E3; try discriminate.
  apply IH in E3. cbn [bind]. intros E. injection E as <-. rewrite !lenN_app, lenN_takeN by assumption.
  destruct (rest - (lab + 1) =? 0) eqn:E4.
  - change (lenN (@nil N)) with 0. lia.
  - change (lenN [46]) with 1. lia.
Qed.

Lemma same_def_name arr v : 1 <= lenN v -> lenN v <= arr -> same_def (fun m => dec_name m (lenN v) arr) v.
Proof.
  intros H1 H2. unfold dec_name. apply same_def_bind.
  - apply same_def_apn. unfold lenN. lia.
  - intros [s|] E; [|apply same_def_ok]. apply apn_len in E.
    apply same_def_if; intros E2; [|apply same_def_ok]. lia.
Qed.

(* ---------------------------------------------------------------- all decoders except activate_predefined_rules *)

Lemma dropN_cons {A} (x : A) l : dropN 1 (x :: l) = l.
Proof. reflexivity. Qed.

Ltac sd :=
  repeat first
    [ apply same_def_ok | apply same_def_err
    | apply same_def_if; intros ?
    | apply same_def_rd_be; lia | apply same_def_rdN; lia | apply same_def_at_ofs; lia | apply same_def_take; lia
    | apply same_def_addrs | apply same_def_opt; lia
    | apply same_def_bind; [|intros ? ?] ].

Lemma oh_bits_def d : lenN d = 2 -> is_ub (oh_bits d) = false.
Proof. intros H. destruct d as [|a [|b [|? ?]]]; try discriminate H. reflexivity. rewrite !lenN_cons in H. lia. Qed.

#[local] Opaque dec_name.
Lemma same_def_all k v : k <> KActPredef -> same_def (fun m => dec_of k m (lenN v)) v.
Proof.
  intros Hk. destruct k; try congruence; cbn [dec_of];
  unfold dec_cause, dec_offending_ie, dec_8, dec_16be, dec_32be, dec_3gpp_iface_type, dec_iface, dec_up_ff, dec_cp_ff,
    dec_f_seid, dec_f_teid, dec_apply_action, dec_bits_padded, dec_ohr, dec_ue_ip, dec_network_inst; try solve [sd].
  - (* node id *)
    unfold dec_node_id. sd.
    + destruct v as [|t v']; [discriminate|]. intros rest. cbn [app]. rewrite !dropN_cons.
      assert (Hl : lenN (t :: v') - 1 = lenN v') by (rewrite lenN_cons; lia).
      rewrite Hl in *. destruct (same_def_name 254 v') with (rest := rest) as [E U]; [lia|lia|].
      auto.
    + destruct x0; sd.
  - sd.
    + apply same_def_name; lia.
    + destruct x; sd.
  - unfold dec_ohc. apply same_def_if; intros E; [sd|]. apply same_def_bind; [sd|]. intros d Ed.
    apply same_def_bind; [apply same_def_ret, oh_bits_def|].
    { rewrite rdN_ok in Ed by lia. injection Ed as <-. apply lenN_takeN. lia. }
    intros [[[[[teidp v4] v6] portp] ctagp] stagp] _. sd.
Qed.
#[local] Transparent dec_name.

Theorem leaf_of_safe k : k <> KActPredef -> leaf_safe AnyTail (leaf_of k).
Proof. intros Hk d v rest E _. injection E as <-. destruct (same_def_all k v Hk rest) as [-> U]. exact U. Qed.
Theorem leaf_of_local k : k <> KActPredef -> leaf_local AnyTail (leaf_of k).
Proof.
  intros Hk d v rest rest' E _ _. injection E as <-.
  destruct (same_def_all k v Hk rest) as [-> _]. destruct (same_def_all k v Hk rest') as [-> _]. reflexivity.
Qed.

(* ---------------------------------------------------------------- activate_predefined_rules *)

Lemma strlen_nul m : In 0 m -> exists n, c_strlen m = Ok n /\ n < lenN m.
Proof.
  induction m as [|b m IH]; intros H; [contradiction|]. cbn [c_strlen]. rewrite lenN_cons. destruct (N.eqb_spec b 0).
  - exists 0. split; [reflexivity|lia].
  - destruct IH as (n' & -> & Hn); [destruct H; [congruence|assumption]|]. exists (n' + 1). split; [reflexivity|lia].
Qed.
Lemma strlen_app_nul v rest : In 0 rest -> exists n, c_strlen (v ++ rest) = Ok n /\ (n < lenN v -> c_strlen (v ++ [0]) = Ok n)
  /\ (lenN v <= n -> c_strlen (v ++ [0]) = Ok (lenN v)).
Proof.
  intros H. induction v as [|b v (n & E & E1 & E2)]; cbn [app c_strlen].
  - destruct (strlen_nul rest H) as (n & -> & _). exists n. split; [reflexivity|]. split; intros L; [change (lenN (@nil N)) with 0 in L; lia|reflexivity].
  - rewrite lenN_cons. destruct (b =? 0).
    + exists 0. split; [reflexivity|]. split; intros L; [reflexivity|lia].
    + rewrite E. cbn [bind]. exists (n + 1). split; [reflexivity|]. split; intros L.
      * rewrite E1 by lia. reflexivity.
      * rewrite E2 by lia. cbn [bind]. f_equal. lia.
Qed.
(* with a NUL somewhere behind the value, the result is the string of the value, as if it were NUL terminated *)
Lemma act_predef_nul v rest : In 0 rest -> dec_act_predef (v ++ rest) (lenN v) = dec_act_predef (v ++ [0]) (lenN v).
Proof.
  intros H. destruct (strlen_app_nul v rest H) as (n & E & E1 & E2). unfold dec_act_predef, osmo_strlcpy. rewrite E. cbn [bind].
  destruct (N.lt_ge_cases n (lenN v)) as [L|L].
  - rewrite E1 by exact L. cbn [bind]. rewrite !takeN_app_le by lia. reflexivity.
  - rewrite E2 by exact L. cbn [bind]. rewrite !takeN_app_le by lia. do 3 f_equal. lia.
Qed.
Lemma act_predef_def v rest : In 0 rest -> exists s, dec_act_predef (v ++ rest) (lenN v) = Ok (IvStr s).
Proof.
  intros H. destruct (strlen_app_nul v rest H) as (n & E & _). unfold dec_act_predef, osmo_strlcpy. rewrite E. cbn [bind]. eexists; reflexivity.
Qed.

Lemma kind_dec (k : kind) : k = KActPredef \/ k <> KActPredef.
Proof. destruct k; (left; reflexivity) || (right; discriminate). Qed.
Theorem leaf_of_safe_nul k : leaf_safe NulTail (leaf_of k).
Proof.
  intros d v rest E H. destruct (kind_dec k) as [->|Hk]; [|exact (leaf_of_safe k Hk d v rest E I)].
  injection E as <-. cbn [dec_of]. destruct (act_predef_def v rest H) as (s & ->). reflexivity.
Qed.
Theorem leaf_of_local_nul k : leaf_local NulTail (leaf_of k).
Proof.
  intros d v rest rest' E H H'. destruct (kind_dec k) as [->|Hk]; [|exact (leaf_of_local k Hk d v rest rest' E I I)].
  injection E as <-. cbn [dec_of]. rewrite (act_predef_nul v rest H), (act_predef_nul v rest' H'). reflexivity.
Qed.
(* without: out-of-bounds read *)
Lemma act_predef_overread : dec_of KActPredef [65; 66] 2 = UB OobRead.
Proof. reflexivity. Qed.

(* ---------------------------------------------------------------- wire format and round trip *)

Lemma take_mid m len ofs n p b r : m = p ++ b ++ r -> ofs = lenN p -> n = lenN b -> ofs + n <= len -> 1 <= n ->
  take m len ofs n = Ok b.
Proof.
  intros -> -> -> H H1. unfold take. destruct (N.ltb_spec (len - lenN p) (lenN b)); [lia|]. unfold at_ofs. rewrite dropN_app. apply rdN_app.
Qed.
Lemma sa_from_4 a : addr4 a -> sa_from_octets a = Sa4 a 0.
Proof. intros [H _]. unfold sa_from_octets, lenN. rewrite H. reflexivity. Qed.
Lemma sa_from_6 a : addr6 a -> sa_from_octets a = Sa6 a 0.
Proof. intros [H _]. unfold sa_from_octets, lenN. rewrite H. reflexivity. Qed.
Lemma sa_to_4 a p : addr4 a -> sa_to_octets 4 (Sa4 a p) = a.
Proof. intros [H _]. unfold sa_to_octets, lenN. rewrite H. cbn. apply app_nil_r. Qed.
Lemma sa_to_6 a p : addr6 a -> sa_to_octets 16 (Sa6 a p) = a.
Proof. intros [H _]. unfold sa_to_octets, lenN. rewrite H. cbn. apply app_nil_r. Qed.
Lemma addr4_len a : addr4 a -> lenN a = 4.
Proof. intros [H _]. unfold lenN. rewrite H. reflexivity. Qed.
Lemma addr6_len a : addr6 a -> lenN a = 16.
Proof. intros [H _]. unfold lenN. rewrite H. reflexivity. Qed.

Lemma dec_addrs_mid m len ofs x p r : valid_addrs x -> m = p ++ wire_addrs x ++ r -> ofs = lenN p ->
  ofs + lenN (wire_addrs x) <= len ->
  dec_addrs m len ofs (ia_v4p x) (ia_v6p x) = Ok (x, ofs + lenN (wire_addrs x)).
Proof.
  intros [H4 H6] -> -> Hl. destruct x as [v4 a4 v6 a6]. unfold wire_addrs in *. cbn [ia_v4p ia_v4 ia_v6p ia_v6] in *.
  unfold dec_addrs. rewrite lenN_app in Hl.
  destruct v4; [destruct H4 as (x4 & -> & H4); pose proof (addr4_len _ H4) as L4|subst a4]; cbn [sa_addr] in *;
    (destruct v6; [destruct H6 as (x6 & -> & H6); pose proof (addr6_len _ H6) as L6|subst a6]); cbn [sa_addr] in *;
    change (lenN (@nil N)) with 0 in *.
  - rewrite (take_mid _ len (lenN p) 4 p x4 (x6 ++ r)) by (try rewrite <- app_assoc; try reflexivity; lia). cbn [bind].
    rewrite (take_mid _ len (lenN p + 4) 16 (p ++ x4) x6 r) by (rewrite ?lenN_app, <- ?app_assoc; try reflexivity; lia). cbn [bind].
    rewrite sa_from_4, sa_from_6, lenN_app, L4, L6 by assumption. do 2 f_equal. lia.
  - rewrite (take_mid _ len (lenN p) 4 p x4 r) by (rewrite ?app_nil_r; try reflexivity; lia). cbn [bind].
    rewrite sa_from_4, app_nil_r, L4 by assumption. reflexivity.
  - cbn [bind]. rewrite (take_mid _ len (lenN p) 16 p x6 r) by (try reflexivity; lia). cbn [bind app].
    rewrite sa_from_6, L6 by assumption. reflexivity.
  - cbn [bind]. change (lenN ([] ++ [])) with 0. rewrite N.add_0_r. reflexivity.
Qed.
Lemma enc_addrs_wire pre x : valid_addrs x -> enc_addrs pre x = (pre ++ wire_addrs x, None).
Proof.
  intros [H4 H6]. destruct x as [v4 a4 v6 a6]. unfold wire_addrs, enc_addrs in *. cbn [ia_v4p ia_v4 ia_v6p ia_v6] in *.
  destruct v4; [destruct H4 as (x4 & -> & H4)|subst a4]; (destruct v6; [destruct H6 as (x6 & -> & H6)|subst a6]);
    cbn [andb is_inet is_inet6 negb sa_addr]; rewrite ?sa_to_4, ?sa_to_6 by assumption; rewrite <- ?app_assoc, ?app_nil_r; reflexivity.
Qed.

Lemma dec_opt_mid m len ofs w pf n p r : opt_num pf n (256 ^ N.of_nat w) -> (1 <= w)%nat -> m = p ++ opt_wire pf w n ++ r -> ofs = lenN p ->
  ofs + lenN (opt_wire pf w n) <= len ->
  dec_opt m len ofs (N.of_nat w) pf = Ok (n, ofs + lenN (opt_wire pf w n)).
Proof.
  intros Hn Hw -> -> Hl. unfold dec_opt, opt_wire, opt_num in *. destruct pf.
  - rewrite be_put_lenN in *. rewrite (take_mid _ len (lenN p) (N.of_nat w) p (be_put w n) r); rewrite ?be_put_lenN; try reflexivity; try lia.
    cbn [bind]. rewrite be_get_put by exact Hn. reflexivity.
  - subst n. change (lenN (@nil N)) with 0. do 2 f_equal. lia.
Qed.

(* names *)
Lemma lenN_wire_labels labels : labels <> [] -> lenN (wire_labels labels) = lenN (join labels) + 1.
Proof.
  induction labels as [|l [|l2 ls] IH]; intros H; [congruence| |].
  - unfold wire_labels. cbn [map concat join]. rewrite app_nil_r, lenN_cons. lia.
  - change (wire_labels (l :: l2 :: ls)) with ((lenN l :: l) ++ wire_labels (l2 :: ls)).
    change (join (l :: l2 :: ls)) with (l ++ 46 :: join (l2 :: ls)).
    rewrite !lenN_app, !lenN_cons, IH by discriminate. lia.
Qed.
Lemma join_label_lt labels l : In l labels -> lenN l <= lenN (join labels).
Proof.
  induction labels as [|a [|b ls] IH]; intros H; [contradiction| |].
  - destruct H as [->|[]]. cbn. lia.
  - change (join (a :: b :: ls)) with (a ++ 46 :: join (b :: ls)). rewrite lenN_app, lenN_cons.
    destruct H as [->|H]; [lia|]. apply IH in H. lia.
Qed.
Lemma labels_cons l l2 ls : labels_ok (l :: l2 :: ls) -> label_ok l /\ l <> [] /\ labels_ok (l2 :: ls).
Proof.
  intros (_ & H & R). inversion H as [|? ? H1 H2]; subst. cbn [removelast] in R. inversion R as [|? ? R1 R2]; subst.
  split; [exact H1|]. split; [exact R1|]. split; [discriminate|]. split; [exact H2|exact R2].
Qed.

Lemma apn_to_str_labels labels fuel rest : labels_ok labels -> Forall (fun l => lenN l < 256) labels ->
  (length (wire_labels labels) < fuel)%nat ->
  apn_to_str fuel (wire_labels labels ++ rest) (lenN (wire_labels labels)) = Ok (Some (join labels)).
Proof.
  revert fuel. induction labels as [|l [|l2 ls] IH]; intros fuel Hok Hs Hf.
  - destruct Hok as [H _]. congruence.
  - unfold wire_labels in *. cbn [map concat join] in *. rewrite app_nil_r in *.
    destruct fuel as [|f]; [lia|]. cbn [apn_to_str app]. rewrite lenN_cons.
    destruct (N.eqb_spec (1 + lenN l) 0); [lia|]. destruct (N.eqb_spec (lenN l) 0) as [E|E].
    + apply lenN_0 in E. subst l. reflexivity.
    + destruct (N.ltb_spec (1 + lenN l) (lenN l + 1)); [lia|]. rewrite rdN_app. cbn [bind]. rewrite dropN_app.
      replace (1 + lenN l - (lenN l + 1)) with 0 by lia. destruct f as [|f]; [cbn [length] in Hf; destruct l; [contradiction E; reflexivity|cbn in Hf; lia]|].
      cbn [apn_to_str]. change (0 =? 0) with true. cbn [bind app]. rewrite app_nil_r. reflexivity.
  - apply labels_cons in Hok. destruct Hok as (Hl & Hne & Hok). inversion Hs as [|? ? Hs1 Hs2]; subst.
    change (wire_labels (l :: l2 :: ls)) with ((lenN l :: l) ++ wire_labels (l2 :: ls)) in *.
    change (join (l :: l2 :: ls)) with (l ++ 46 :: join (l2 :: ls)).
    destruct fuel as [|f]; [lia|]. cbn [apn_to_str app]. rewrite lenN_cons, lenN_app.
    assert (lenN l <> 0). { intros E. apply lenN_0 in E. congruence. }
    destruct (N.eqb_spec (1 + (lenN l + lenN (wire_labels (l2 :: ls)))) 0); [lia|]. destruct (N.eqb_spec (lenN l) 0); [lia|].
    destruct (N.ltb_spec (1 + (lenN l + lenN (wire_labels (l2 :: ls)))) (lenN l + 1)); [lia|].
    rewrite <- app_assoc, rdN_app. cbn [bind]. rewrite dropN_app.
    replace (1 + (lenN l + lenN (wire_labels (l2 :: ls))) - (lenN l + 1)) with (lenN (wire_labels (l2 :: ls))) by lia.
    rewrite IH; [|exact Hok|exact Hs2|cbn [app length] in Hf; rewrite app_length in Hf; lia]. cbn [bind].
    destruct (N.eqb_spec (lenN (wire_labels (l2 :: ls))) 0) as [E|E]; [|reflexivity].
    rewrite lenN_wire_labels in E by discriminate. lia.
Qed.


Lemma apn_labels_plain acc l s : label_ok l -> apn_labels acc (l ++ s) = apn_labels (acc ++ l) s.
Proof.
  revert acc. induction l as [|b l IH]; intros acc H; [rewrite app_nil_r; reflexivity|]. inversion H as [|? ? [_ Hb] Hl]; subst.
  cbn [app apn_labels]. destruct (N.eqb_spec b 46); [congruence|]. rewrite IH by exact Hl. rewrite <- app_assoc. reflexivity.
Qed.
Lemma apn_labels_join labels : labels_ok labels -> Forall (fun l => lenN l < 256) labels -> apn_labels [] (join labels) = wire_labels labels.
Proof.
  induction labels as [|l [|l2 ls] IH]; intros Hok Hs.
  - destruct Hok as [H _]. congruence.
  - destruct Hok as (_ & Hl & _). inversion Hl; subst. inversion Hs; subst. unfold wire_labels. cbn [join map concat]. rewrite app_nil_r.
    rewrite <- (app_nil_r l) at 1. rewrite apn_labels_plain by assumption. cbn [app apn_labels]. rewrite N.mod_small by assumption. reflexivity.
  - apply labels_cons in Hok. destruct Hok as (Hl & Hne & Hok). inversion Hs as [|? ? Hs1 Hs2]; subst.
    change (wire_labels (l :: l2 :: ls)) with ((lenN l :: l) ++ wire_labels (l2 :: ls)).
    change (join (l :: l2 :: ls)) with (l ++ 46 :: join (l2 :: ls)).
    rewrite apn_labels_plain by assumption. cbn [app apn_labels]. change (46 =? 46) with true. cbn [app].
    rewrite N.mod_small by assumption. rewrite IH by assumption. reflexivity.
Qed.
Lemma cstr_id s : Forall (fun b => 0 < b) s -> cstr s = s.
Proof. induction 1 as [|b s Hb H IH]; cbn [cstr]; [reflexivity|]. destruct (N.eqb_spec b 0); [lia|]. rewrite IH. reflexivity. Qed.
Lemma join_chars labels : Forall label_ok labels -> Forall (fun b => 0 < b) (join labels).
Proof.
  induction labels as [|l [|l2 ls] IH]; intros H; [constructor| |].
  - inversion H; subst. cbn. eapply Forall_impl; [|eassumption]. cbn. intros b Hb. lia.
  - change (join (l :: l2 :: ls)) with (l ++ 46 :: join (l2 :: ls)). inversion H as [|? ? H1 H2]; subst. apply Forall_app. split.
    + eapply Forall_impl; [|exact H1]. cbn. intros b Hb. lia.
    + constructor; [lia|apply IH, H2].
Qed.

Lemma name_rt labels rest : labels_ok labels -> lenN (join labels) <= 253 ->
  dec_name (wire_labels labels ++ rest) (lenN (wire_labels labels)) 254 = Ok (Some (join labels)).
Proof.
  intros Hok Hl. unfold dec_name. pose proof Hok as (Hne & Hlab & _).
  rewrite apn_to_str_labels; [|exact Hok| |unfold lenN; lia].
  - cbn [bind]. destruct (N.ltb_spec 254 (lenN (join labels) + 1)); [lia|]. rewrite cstr_id; [reflexivity|apply join_chars, Hlab].
  - apply Forall_forall. intros l Hi. apply join_label_lt in Hi. lia.
Qed.
Lemma name_enc labels room : labels_ok labels -> lenN (join labels) <= 253 -> lenN (wire_labels labels) <= room ->
  apn_from_str room (join labels) = Some (wire_labels labels).
Proof.
  intros Hok Hl Hr. unfold apn_from_str. pose proof Hok as (Hne & Hlab & _). rewrite lenN_wire_labels in Hr by exact Hne.
  destruct (N.ltb_spec room (lenN (join labels) + 1)); [lia|]. rewrite apn_labels_join; [reflexivity|exact Hok|].
  apply Forall_forall. intros l Hi. apply join_label_lt in Hi. lia.
Qed.

(* every valid value has a wire form *)
Lemma wire_exists k v : valid_ie k v -> exists bs, wire_ie k v bs.
Proof.
  intros H. destruct k, v as [n|[ip|ip|s|t]|l|x|[teid a|v4 v6 p i]|s|x|x|x]; try contradiction; cbn [wire_ie valid_ie] in *;
  try (eexists; reflexivity).
  - destruct H as (labels & Hok & -> & _). eexists; eexists; eauto.
  - destruct H as (labels & Hok & -> & _). eexists; eexists; eauto.
Qed.

Lemma be_put1 n : n < 256 -> be_put 1 n = [n].
Proof. intros H. cbn [be_put app]. rewrite N.mod_small by exact H. reflexivity. Qed.

Lemma flags_fseid a b : flag (b2n a 1 + b2n b 2) 2 = b /\ flag (b2n a 1 + b2n b 2) 1 = a.
Proof. destruct a, b; split; reflexivity. Qed.
Lemma oh_bits_of d0 d1 : d0 < 256 -> oh_bits [d0; d1] =
  Ok (bit d0 0 || bit d0 1, bit d0 0 || bit d0 2 || bit d0 4, bit d0 1 || bit d0 3 || bit d0 5, bit d0 2 || bit d0 3, bit d0 6, bit d0 7).
Proof.
  intros H.
  assert (L : forall k, k < 8 -> bits_get [d0; d1] k = Ok (N.testbit d0 k)).
  { intros k Hk. unfold bits_get. replace (k / 8) with 0 by (symmetry; apply N.div_small; exact Hk). change (nth_error [d0; d1] (N.to_nat 0)) with (Some d0). cbn iota.
    rewrite N.mod_small by exact Hk. f_equal.
    assert (E : N.land d0 (2 ^ k) = if N.testbit d0 k then 2 ^ k else 0).
    { apply N.bits_inj. intros i. rewrite N.land_spec, N.pow2_bits_eqb. destruct (N.eqb_spec k i) as [->|Hi].
      - rewrite andb_true_r. destruct (N.testbit d0 i); [rewrite N.pow2_bits_true|rewrite N.bits_0]; reflexivity.
      - rewrite andb_false_r. destruct (N.testbit d0 k); [rewrite N.pow2_bits_false by exact Hi|rewrite N.bits_0]; reflexivity. }
    rewrite E. destruct (N.testbit d0 k); [|reflexivity]. destruct (N.eqb_spec (2 ^ k) 0) as [Z|Z]; [|reflexivity].
    exfalso. revert Z. apply N.pow_nonzero. discriminate. }
  unfold oh_bits. rewrite !L by lia. reflexivity.
Qed.

Lemma ie_enc k v bs room : valid_ie k v -> wire_ie k v bs -> lenN bs <= room -> enc_of k room v = (bs, None).
Proof.
  intros H W R. destruct k, v as [n|[ip|ip|s|t]|l|x|[teid a|v4 v6 p i]|s|x|x|x]; try contradiction; cbn [wire_ie valid_ie enc_of] in *;
  try (subst bs);
  unfold enc_cause, enc_offending_ie, enc_8, enc_16be, enc_32be, enc_bits, enc_node_id, enc_f_seid, enc_f_teid,
    enc_network_inst, enc_ohc, enc_act_predef, enc_ohr; rewrite ?be_put1 by assumption; try reflexivity.
  - unfold enc_3gpp_iface_type. rewrite !N.mod_small by lia. rewrite be_put1 by lia. reflexivity.
  - unfold enc_iface. rewrite !N.mod_small by lia. rewrite be_put1 by lia. reflexivity.
  - unfold enc_iface. rewrite !N.mod_small by lia. rewrite be_put1 by lia. reflexivity.
  - destruct H as (a & -> & Ha). rewrite sa_to_4 by exact Ha. reflexivity.
  - destruct H as (a & -> & Ha). rewrite sa_to_6 by exact Ha. reflexivity.
  - destruct W as (labels & Hok & -> & ->). destruct H as (_ & _ & _ & Hl). rewrite lenN_cons in R. rewrite (name_enc labels) by (assumption || lia).
    reflexivity.
  - destruct H as [_ H]. rewrite enc_addrs_wire by exact H. cbn [app]. reflexivity.
  - destruct H as [_ H]. rewrite enc_addrs_wire by exact H. reflexivity.
  - unfold opt_wire. f_equal. cbn [app]. f_equal. lia.
  - destruct W as (labels & Hok & -> & ->). destruct H as (_ & _ & _ & Hl). rewrite (name_enc labels) by (assumption || lia). reflexivity.
  - destruct H as (d0 & d1 & Ed & H0 & H1 & Et & E4 & E6 & Ep & Ec & Es & Ha & _). rewrite Ed, oh_bits_of by exact H0.
    rewrite <- Et, <- E4, <- E6, <- Ep, <- Ec, <- Es, !eqb_reflx. cbn [negb].
    pose proof (enc_addrs_wire [] _ Ha) as Ea. unfold enc_addrs in Ea. unfold opt_wire.
    destruct Ha as [V4 V6].
    assert (E4' : (if ia_v4p (oh_addr x) then sa_to_octets 4 (ia_v4 (oh_addr x)) else []) = sa_addr (ia_v4 (oh_addr x))).
    { destruct (ia_v4p (oh_addr x)); [destruct V4 as (a & -> & V4); apply sa_to_4, V4|rewrite V4; reflexivity]. }
    assert (E6' : (if ia_v6p (oh_addr x) then sa_to_octets 16 (ia_v6 (oh_addr x)) else []) = sa_addr (ia_v6 (oh_addr x))).
    { destruct (ia_v6p (oh_addr x)); [destruct V6 as (a & -> & V6); apply sa_to_6, V6|rewrite V6; reflexivity]. }
    rewrite E4', E6'. unfold wire_addrs. rewrite <- !app_assoc. reflexivity.
  - destruct H as (Hd & b & Ee & Hb). rewrite be_put1 by exact Hd. reflexivity.
  - destruct H as (Ha & _). unfold enc_ue_ip. rewrite enc_addrs_wire by exact Ha. unfold opt_wire. rewrite <- app_assoc. cbn [app].
    do 2 f_equal. lia.
Qed.

Lemma ie_dec k v bs rest : valid_ie k v -> wire_ie k v bs -> (k = KActPredef -> In 0 rest) -> dec_of k (bs ++ rest) (lenN bs) = Ok v.
Proof.
  intros H W R.
  assert (RB : forall w n r, n < 256 ^ N.of_nat w -> rd_be (N.of_nat w) (be_put w n ++ r) = Ok n).
  { intros w n r Hn. unfold rd_be. rewrite rdN_app' by (rewrite be_put_lenN; reflexivity). cbn [bind]. rewrite be_get_put by exact Hn. reflexivity. }
  assert (R1 : forall n r, rd_be 1 (n :: r) = Ok n).
  { intros n r. unfold rd_be. change (n :: r) with ([n] ++ r). rewrite rdN_app' by reflexivity. reflexivity. }
  destruct k, v as [n|[ip|ip|s|t]|l|x|[teid a|v4 v6 p i]|s|x|x|x]; try contradiction; cbn [wire_ie valid_ie dec_of] in *;
  try (subst bs).
  - unfold dec_cause. cbn [app]. rewrite R1. reflexivity.
  - unfold dec_offending_ie. rewrite be_put_lenN. pose proof (RB 2%nat n rest H) as E. change (N.of_nat 2) with 2 in *. rewrite E. reflexivity.
  - unfold dec_8. cbn [app]. rewrite R1. reflexivity.
  - unfold dec_16be. rewrite be_put_lenN. pose proof (RB 2%nat n rest H) as E. change (N.of_nat 2) with 2 in *. rewrite E. reflexivity.
  - unfold dec_32be. rewrite be_put_lenN. pose proof (RB 4%nat n rest H) as E. change (N.of_nat 4) with 4 in *. rewrite E. reflexivity.
  - unfold dec_3gpp_iface_type. cbn [app]. rewrite R1. cbn [bind]. rewrite N.mod_small by exact H. reflexivity.
  - unfold dec_iface. cbn [app]. rewrite R1. cbn [bind]. rewrite N.mod_small by exact H. reflexivity.
  - unfold dec_iface. cbn [app]. rewrite R1. cbn [bind]. rewrite N.mod_small by exact H. reflexivity.
  - destruct H as (a & -> & Ha). cbn [sa_addr]. unfold dec_node_id. cbn [app]. rewrite R1, lenN_cons, (addr4_len a Ha). cbn [bind].
    change (1 + 4 <? 1) with false. change (0 =? 0) with true. cbn [negb]. change (1 + 4 - 1 =? 4) with true. cbn [negb].
    unfold at_ofs. rewrite dropN_cons, rdN_app' by (rewrite addr4_len by exact Ha; reflexivity). cbn [bind]. rewrite sa_from_4 by exact Ha. reflexivity.
  - destruct H as (a & -> & Ha). cbn [sa_addr]. unfold dec_node_id. cbn [app]. rewrite R1, lenN_cons, (addr6_len a Ha). cbn [bind].
    change (1 + 16 <? 1) with false. change (1 =? 0) with false. change (1 =? 1) with true. cbn [negb]. change (1 + 16 - 1 =? 16) with true. cbn [negb].
    unfold at_ofs. rewrite dropN_cons, rdN_app' by (rewrite addr6_len by exact Ha; reflexivity). cbn [bind]. rewrite sa_from_6 by exact Ha. reflexivity.
  - destruct W as (labels & Hok & -> & ->). destruct H as (_ & _ & _ & Hl). pose proof Hok as (Hne & _).
    pose proof (lenN_wire_labels labels Hne) as Lw. unfold dec_node_id. cbn [app]. rewrite R1, lenN_cons. cbn [bind].
    destruct (N.ltb_spec (1 + lenN (wire_labels labels)) 1); [lia|].
    change (2 =? 0) with false. change (2 =? 1) with false. change (2 =? 2) with true. cbn iota.
    replace (1 + lenN (wire_labels labels) - 1) with (lenN (wire_labels labels)) by lia.
    destruct (N.ltb_spec (lenN (wire_labels labels)) 1); [lia|]. destruct (N.ltb_spec 254 (lenN (wire_labels labels))); [lia|]. cbn [orb].
    rewrite dropN_cons, (name_rt labels) by assumption. reflexivity.
  - destruct H as [Hl Hb]. unfold dec_up_ff, dec_bits_padded.
    assert (E : lenN l = 6) by (unfold lenN; rewrite Hl; reflexivity). rewrite E. change (N.min 6 6) with 6. rewrite rdN_app' by (symmetry; exact E).
    cbn. rewrite app_nil_r. reflexivity.
  - destruct H as [Hl Hb]. unfold dec_cp_ff.
    assert (E : lenN l = 1) by (unfold lenN; rewrite Hl; reflexivity). rewrite E. rewrite rdN_app' by (symmetry; exact E). reflexivity.
  - destruct H as [Hs Ha]. destruct x as [seid a]. cbn [fs_seid fs_addr] in *. unfold dec_f_seid.
    set (fl := b2n (ia_v6p a) 1 + b2n (ia_v4p a) 2). cbn [app]. rewrite lenN_cons, lenN_app, be_put_lenN.
    destruct (N.ltb_spec (1 + (N.of_nat 8 + lenN (wire_addrs a))) 9); [lia|]. rewrite R1. cbn [bind].
    unfold at_ofs. rewrite dropN_cons, <- app_assoc, rdN_app' by (rewrite be_put_lenN; reflexivity). cbn [bind].
    destruct (flags_fseid (ia_v6p a) (ia_v4p a)) as [F1 F2]. fold fl in F1, F2. rewrite F1, F2.
    rewrite (dec_addrs_mid _ _ 9 a (fl :: be_put 8 seid) rest); [|exact Ha|reflexivity|rewrite lenN_cons, be_put_lenN; reflexivity|lia].
    cbn [bind fst]. rewrite be_get_put by exact Hs. reflexivity.
  - destruct H as [Hs Ha]. unfold dec_f_teid.
    set (fl := b2n (ia_v4p a) 1 + b2n (ia_v6p a) 2). cbn [app]. rewrite lenN_cons, lenN_app, be_put_lenN.
    rewrite (take_mid _ _ 0 1 [] [fl] ((be_put 4 teid ++ wire_addrs a) ++ rest)) by (reflexivity || lia). cbn [bind].
    change (be_get [fl]) with fl.
    assert (F : flag fl 4 = false /\ flag fl 1 = ia_v4p a /\ flag fl 2 = ia_v6p a) by (subst fl; destruct (ia_v4p a), (ia_v6p a); auto).
    destruct F as (-> & -> & ->). cbn [negb].
    rewrite (take_mid _ _ 1 4 [fl] (be_put 4 teid) (wire_addrs a ++ rest)); [|rewrite <- app_assoc; reflexivity|reflexivity|rewrite be_put_lenN; reflexivity|lia|lia].
    cbn [bind].
    rewrite (dec_addrs_mid _ _ 5 a (fl :: be_put 4 teid) rest); [|exact Ha|rewrite <- app_assoc; reflexivity|rewrite lenN_cons, be_put_lenN; reflexivity|lia].
    cbn [bind fst]. rewrite be_get_put by exact Hs. reflexivity.
  - unfold dec_f_teid. set (fl := b2n v4 1 + b2n v6 2 + 4 + b2n p 8). cbn [app]. rewrite lenN_cons.
    rewrite (take_mid _ _ 0 1 [] [fl] (opt_wire p 1 i ++ rest)) by (reflexivity || lia). cbn [bind]. change (be_get [fl]) with fl.
    assert (F : flag fl 4 = true /\ flag fl 1 = v4 /\ flag fl 2 = v6 /\ flag fl 8 = p) by (subst fl; destruct v4, v6, p; auto).
    destruct F as (-> & -> & -> & ->). cbn [negb]. unfold opt_num, opt_wire in *. destruct p; [|subst i; reflexivity].
    rewrite (take_mid _ _ 1 1 [fl] (be_put 1 i) rest); [|reflexivity|reflexivity|rewrite be_put_lenN; reflexivity|rewrite be_put_lenN; lia|lia].
    cbn [bind]. rewrite be_get_put by exact H. reflexivity.
  - destruct H as [Hl Hb]. unfold dec_apply_action, dec_bits_padded.
    assert (E : lenN l = 2) by (unfold lenN; rewrite Hl; reflexivity). rewrite E. change (2 <? 1) with false. change (N.min 2 2) with 2.
    rewrite rdN_app' by (symmetry; exact E). cbn. rewrite app_nil_r. reflexivity.
  - destruct W as (labels & Hok & -> & ->). destruct H as (_ & _ & _ & Hl). pose proof Hok as (Hne & _).
    pose proof (lenN_wire_labels labels Hne) as Lw. unfold dec_network_inst.
    destruct (N.ltb_spec (lenN (wire_labels labels)) 1); [lia|]. destruct (N.ltb_spec 254 (lenN (wire_labels labels))); [lia|]. cbn [orb].
    rewrite (name_rt labels) by assumption. reflexivity.
  - destruct H as (d0 & d1 & Ed & H0 & H1 & Et & E4 & E6 & Ep & Ec & Es & Ha & Nt & Np & Nc & Ns).
    destruct x as [desc teidp teid addr portp port ctagp ctag stagp stag].
    cbn [oh_desc oh_teidp oh_teid oh_addr oh_portp oh_port oh_ctagp oh_ctag oh_stagp oh_stag] in *. subst desc.
    unfold dec_ohc. rewrite !lenN_app. change (lenN [d0; d1]) with 2. rewrite <- !app_assoc.
    set (len := 2 + (lenN (opt_wire teidp 4 teid) + (lenN (wire_addrs addr) + (lenN (opt_wire portp 2 port) + (lenN (opt_wire ctagp 3 ctag) + lenN (opt_wire stagp 3 stag)))))).
    destruct (N.ltb_spec len 2); [lia|]. rewrite (rdN_app' 2 [d0; d1]) by reflexivity. cbn [bind]. rewrite oh_bits_of by exact H0.
    cbn [bind]. rewrite <- Et, <- E4, <- E6, <- Ep, <- Ec, <- Es.
    rewrite (dec_opt_mid _ len 2 4 teidp teid [d0; d1] (wire_addrs addr ++ opt_wire portp 2 port ++ opt_wire ctagp 3 ctag ++ opt_wire stagp 3 stag ++ rest));
      [|exact Nt|lia|reflexivity|reflexivity|subst len; lia]. cbn [bind fst snd].
    rewrite (dec_addrs_mid _ len _ addr ([d0; d1] ++ opt_wire teidp 4 teid) (opt_wire portp 2 port ++ opt_wire ctagp 3 ctag ++ opt_wire stagp 3 stag ++ rest));
      [|exact Ha|rewrite <- !app_assoc; reflexivity|rewrite lenN_app; reflexivity|subst len; lia]. cbn [bind fst snd].
    rewrite (dec_opt_mid _ len _ 2 portp port (([d0; d1] ++ opt_wire teidp 4 teid) ++ wire_addrs addr) (opt_wire ctagp 3 ctag ++ opt_wire stagp 3 stag ++ rest));
      [|exact Np|lia|rewrite <- !app_assoc; reflexivity|rewrite !lenN_app; reflexivity|subst len; lia]. cbn [bind fst snd].
    rewrite (dec_opt_mid _ len _ 3 ctagp ctag ((([d0; d1] ++ opt_wire teidp 4 teid) ++ wire_addrs addr) ++ opt_wire portp 2 port) (opt_wire stagp 3 stag ++ rest));
      [|exact Nc|lia|rewrite <- !app_assoc; reflexivity|rewrite !lenN_app; reflexivity|subst len; lia]. cbn [bind fst snd].
    rewrite (dec_opt_mid _ len _ 3 stagp stag (((([d0; d1] ++ opt_wire teidp 4 teid) ++ wire_addrs addr) ++ opt_wire portp 2 port) ++ opt_wire ctagp 3 ctag) rest);
      [|exact Ns|lia|rewrite <- !app_assoc; reflexivity|rewrite !lenN_app; reflexivity|subst len; lia]. reflexivity.
  - destruct H as [Hc Hl]. rewrite act_predef_nul by (apply R; reflexivity). unfold dec_act_predef, osmo_strlcpy.
    assert (E : c_strlen (s ++ [0]) = Ok (lenN s)).
    { clear -Hc. induction Hc as [|b s Hb Hc IH]; [reflexivity|]. cbn [app c_strlen]. destruct (N.eqb_spec b 0); [lia|]. rewrite IH, lenN_cons.
      cbn [bind]. f_equal. lia. }
    rewrite E. cbn [bind]. replace (N.min (N.min 256 (lenN s + 1) - 1) (lenN s)) with (lenN s) by lia. rewrite takeN_app. reflexivity.
  - destruct H as (Hd & b & Ee & Hb). destruct x as [d p e]. cbn [or_desc or_extp or_ext] in *. subst e. unfold dec_ohr, opt_num in *.
    destruct p.
    + cbn [app]. rewrite R1. change (lenN [d; b]) with 2. cbn [bind]. change (2 <? 1) with false. change (1 <? 2) with true. cbn iota. unfold at_ofs.
      rewrite dropN_cons. change (b :: rest) with ([b] ++ rest). rewrite rdN_app' by reflexivity. reflexivity.
    + subst b. cbn [app]. rewrite R1. reflexivity.
  - destruct H as (Ha & Nd & Np). destruct x as [c6 c4 dst a dp dv pp pv].
    cbn [ue_chv6 ue_chv4 ue_dest ue_addr ue_delegp ue_deleg ue_plenp ue_plen] in *. unfold dec_ue_ip.
    set (fl := b2n (ia_v6p a) 1 + b2n (ia_v4p a) 2 + b2n dst 4 + b2n dp 8 + b2n c4 16 + b2n c6 32 + b2n pp 64). cbn [app]. rewrite lenN_cons, !lenN_app.
    set (len := 1 + (lenN (wire_addrs a) + (lenN (opt_wire dp 1 dv) + lenN (opt_wire pp 1 pv)))).
    rewrite (take_mid _ len 0 1 [] [fl] ((wire_addrs a ++ opt_wire dp 1 dv ++ opt_wire pp 1 pv) ++ rest)) by (reflexivity || lia). cbn [bind].
    change (be_get [fl]) with fl.
    assert (F : flag fl 2 = ia_v4p a /\ flag fl 1 = ia_v6p a /\ flag fl 8 = dp /\ flag fl 64 = pp /\ flag fl 32 = c6 /\ flag fl 16 = c4 /\ flag fl 4 = dst).
    { subst fl. destruct (ia_v4p a), (ia_v6p a), dst, dp, c4, c6, pp; repeat split; reflexivity. }
    destruct F as (-> & -> & -> & -> & -> & -> & ->).
    rewrite (dec_addrs_mid _ len 1 a [fl] (opt_wire dp 1 dv ++ opt_wire pp 1 pv ++ rest)); [|exact Ha|rewrite <- !app_assoc; reflexivity|reflexivity|subst len; lia].
    cbn [bind fst snd].
    rewrite (dec_opt_mid _ len _ 1 dp dv ([fl] ++ wire_addrs a) (opt_wire pp 1 pv ++ rest));
      [|exact Nd|lia|cbn [app]; rewrite <- !app_assoc; reflexivity|rewrite !lenN_app; reflexivity|subst len; lia]. cbn [bind fst snd].
    rewrite (dec_opt_mid _ len _ 1 pp pv (([fl] ++ wire_addrs a) ++ opt_wire dp 1 dv) rest);
      [|exact Np|lia|cbn [app]; rewrite <- !app_assoc; reflexivity|rewrite !lenN_app; reflexivity|subst len; lia]. reflexivity.
Qed.

(* ---------------------------------------------------------------- as leaves of a coding table *)

Definition tail_of (k : kind) : list N -> Prop := match k with KActPredef => NulTail | _ => AnyTail end.
Lemma tail_of_act k rest : tail_of k rest -> k = KActPredef -> In 0 rest.
Proof. intros H ->. exact H. Qed.

Theorem ie_repr k v bs : valid_ie k v -> wire_ie k v bs -> leaf_repr (tail_of k) (leaf_of k) v bs.
Proof.
  intros H W. split; (eexists; split; [reflexivity|]).
  - intros room R. apply ie_enc; assumption.
  - intros rest T. apply ie_dec; [exact H|exact W|apply tail_of_act, T].
Qed.
Theorem ie_repr_nul k v bs : valid_ie k v -> wire_ie k v bs -> leaf_repr NulTail (leaf_of k) v bs.
Proof.
  intros H W. split; (eexists; split; [reflexivity|]).
  - intros room R. apply ie_enc; assumption.
  - intros rest T. apply ie_dec; [exact H|exact W|intros _; exact T].
Qed.
Theorem ie_det k v : leaf_det (leaf_of k) v.
Proof.
  intros f r r' b b' E. injection E as <-.
  destruct k, v as [n|[ip|ip|s|t]|l|x|[teid a|v4 v6 p i]|s|x|x|x]; cbn [enc_of];
  unfold enc_cause, enc_offending_ie, enc_8, enc_16be, enc_32be, enc_bits, enc_node_id, enc_f_seid, enc_f_teid,
    enc_network_inst, enc_ohc, enc_act_predef, enc_ohr, enc_ue_ip, enc_3gpp_iface_type, enc_iface, wrong_type, apn_from_str; try congruence;
  repeat match goal with |- context [?a <? ?b] => destruct (a <? b) end; congruence.
Qed.
Theorem ie_wf k v : valid_ie k v -> leaf_wf NulTail (leaf_of k) v.
Proof. intros H. split; [apply ie_det|]. destruct (wire_exists k v H) as (bs & W). exists bs. apply ie_repr_nul; assumption. Qed.

(* ---------------------------------------------------------------- what decoders return *)

Definition name_kind (k : kind) : Prop := k = KNodeId \/ k = KNetInst.
Definition name_of (x : iev) : option (list N) :=
  match x with IvNode (NodeFqdn s) => Some s | IvStr s => Some s | _ => None end.

Lemma bytes_1 l : bytes_ok l -> lenN l = 1 -> exists b, l = [b] /\ b < 256.
Proof.
  intros H L. destruct l as [|b [|? ?]]; [discriminate| |rewrite !lenN_cons in L; lia]. inversion H; subst. eauto.
Qed.
Lemma rdN_bytes n m b : bytes_ok m -> rdN n m = Ok b -> bytes_ok b /\ lenN b = n.
Proof.
  intros H. unfold rdN. destruct (N.leb_spec n (lenN m)); [|discriminate]. intros E. injection E as <-.
  split; [apply bytes_ok_takeN, H|apply lenN_takeN; assumption].
Qed.
Lemma rd_be_bytes n m x : bytes_ok m -> rd_be n m = Ok x -> x < 256 ^ n.
Proof.
  intros H. unfold rd_be. destruct (rdN n m) as [b|e|u] eqn:E; try discriminate. cbn [bind]. intros E'. injection E' as <-.
  apply rdN_bytes in E; [|exact H]. destruct E as [Hb <-]. apply be_get_bound, Hb.
Qed.
Lemma take_bytes m len ofs n b : bytes_ok m -> take m len ofs n = Ok b -> bytes_ok b /\ lenN b = n.
Proof.
  intros H. unfold take, at_ofs. destruct (len - ofs <? n); [discriminate|]. apply rdN_bytes, bytes_ok_dropN, H.
Qed.
Lemma len_nat {A} (l : list A) n : lenN l = N.of_nat n -> length l = n.
Proof. unfold lenN. lia. Qed.
Lemma dec_addrs_valid m len ofs v4 v6 a o : bytes_ok m -> dec_addrs m len ofs v4 v6 = Ok (a, o) ->
  valid_addrs a /\ ia_v4p a = v4 /\ ia_v6p a = v6.
Proof.
  intros H. unfold dec_addrs, valid_addrs.
  destruct v4; [destruct (take m len ofs 4) as [x4| |] eqn:E4; try discriminate; apply take_bytes in E4; [|exact H]|]; cbn [bind];
  (destruct v6; [match goal with |- context [take m len ?o 16] => destruct (take m len o 16) as [x6| |] eqn:E6 end;
     try discriminate; apply take_bytes in E6; [|exact H]|]); cbn [bind];
  intros E; injection E as <- <-; cbn [ia_v4p ia_v4 ia_v6p ia_v6]; repeat split; trivial.
  - destruct E4 as [B4 L4]. exists x4. split; [unfold sa_from_octets; rewrite L4; reflexivity|]. split; [apply len_nat, L4|exact B4].
  - destruct E6 as [B6 L6]. exists x6. split; [unfold sa_from_octets; rewrite L6; reflexivity|]. split; [apply len_nat, L6|exact B6].
  - destruct E4 as [B4 L4]. exists x4. split; [unfold sa_from_octets; rewrite L4; reflexivity|]. split; [apply len_nat, L4|exact B4].
  - destruct E6 as [B6 L6]. exists x6. split; [unfold sa_from_octets; rewrite L6; reflexivity|]. split; [apply len_nat, L6|exact B6].
Qed.
Lemma dec_opt_valid m len ofs n p x o : bytes_ok m -> dec_opt m len ofs n p = Ok (x, o) -> opt_num p x (256 ^ n).
Proof.
  intros H. unfold dec_opt, opt_num. destruct p.
  - destruct (take m len ofs n) as [b| |] eqn:E; try discriminate. apply take_bytes in E; [|exact H]. cbn [bind].
    intros E'. injection E' as <- _. destruct E as [B <-]. apply be_get_bound, B.
  - intros E. injection E as <- _. reflexivity.
Qed.
Lemma cstr_chars s : bytes_ok s -> Forall (fun b => 0 < b < 256) (cstr s).
Proof.
  induction 1 as [|b s Hb H IH]; cbn [cstr]; [constructor|]. destruct (N.eqb_spec b 0); constructor; [|exact IH]. unfold byte_ok in Hb. lia.
Qed.
Lemma cstr_len s : lenN (cstr s) <= lenN s.
Proof. induction s as [|b s IH]; cbn [cstr]; [lia|]. destruct (b =? 0); rewrite ?lenN_cons; [change (lenN (@nil N)) with 0; lia|lia]. Qed.

Lemma apn_bytes fuel m rest s : bytes_ok m -> apn_to_str fuel m rest = Ok (Some s) -> bytes_ok s.
Proof.
  revert m rest s. induction fuel as [|f IH]; intros m rest s Hm; [discriminate|]. cbn [apn_to_str].
  destruct (rest =? 0); [intros E; injection E as <-; constructor|].
  destruct m as [|lab m']; [discriminate|]. destruct (lab =? 0); [intros E; injection E as <-; constructor|].
  destruct (rest <? lab + 1); [discriminate|]. inversion Hm as [|? ? _ Hm']; subst.
  destruct (rdN lab m') as [l| |] eqn:El; try discriminate. apply rdN_bytes in El; [|exact Hm'].
  cbn [bind]. destruct (apn_to_str f (dropN lab m') (rest - (lab + 1))) as [[s'|]|e|u] eqn:E3; try discriminate.
  apply IH in E3; [|apply bytes_ok_dropN, Hm']. cbn [bind]. intros E. injection E as <-. apply bytes_ok_app. split; [apply El|].
  apply bytes_ok_app. split; [|exact E3]. destruct (_ =? 0); repeat constructor.
Qed.
Lemma dec_name_valid m len arr s : bytes_ok m -> 1 <= len -> dec_name m len arr = Ok (Some s) ->
  Forall (fun b => 0 < b < 256) s /\ lenN s + 1 <= arr.
Proof.
  intros Hm H1. unfold dec_name. destruct (apn_to_str _ m len) as [[s'|]|e|u] eqn:E; try discriminate. cbn [bind].
  destruct (N.ltb_spec arr (lenN s' + 1)); [discriminate|]. intros E'. injection E' as <-.
  split; [apply cstr_chars; eapply apn_bytes; eassumption|]. pose proof (cstr_len s'). lia.
Qed.

Ltac inv_bind H :=
  match type of H with
  | bind ?a _ = Ok _ => let E := fresh "E" in destruct a as [?x| |] eqn:E; try discriminate H; cbn [bind] in H
  | (if ?b then _ else _) = Ok _ => let E := fresh "E" in destruct b eqn:E; try discriminate H
  end.

Lemma decoded_valid_self k v x : k <> KActPredef -> bytes_ok v -> dec_of k v (lenN v) = Ok x ->
  valid_ie k x
  \/ name_kind k /\ exists s, name_of x = Some s /\ Forall (fun b => 0 < b < 256) s /\ lenN s <= 253.
Proof.
  intros Hk B H.
  assert (B1 : forall n y, rd_be n v = Ok y -> y < 256 ^ n) by (intros n y; apply rd_be_bytes, B).
  destruct k; try congruence; cbn [dec_of] in H;
  unfold dec_cause, dec_offending_ie, dec_8, dec_16be, dec_32be, dec_3gpp_iface_type, dec_iface, dec_up_ff, dec_cp_ff,
    dec_f_seid, dec_f_teid, dec_apply_action, dec_bits_padded, dec_ohr, dec_ue_ip, dec_network_inst, dec_node_id, dec_ohc in H.
  - left. repeat inv_bind H. injection H as <-. exact (B1 _ _ E0).
  - left. repeat inv_bind H. injection H as <-. exact (B1 _ _ E0).
  - left. repeat inv_bind H. injection H as <-. exact (B1 _ _ E0).
  - left. repeat inv_bind H. injection H as <-. exact (B1 _ _ E0).
  - left. repeat inv_bind H. injection H as <-. exact (B1 _ _ E0).
  - left. repeat inv_bind H. injection H as <-. cbn [valid_ie]. lia.
  - left. repeat inv_bind H. injection H as <-. cbn [valid_ie]. lia.
  - left. repeat inv_bind H. injection H as <-. cbn [valid_ie]. lia.
  - (* node id *)
    do 3 inv_bind H.
    + do 2 inv_bind H. injection H as <-. left. cbn [valid_ie]. unfold at_ofs in E3. apply rdN_bytes in E3; [|apply bytes_ok_dropN, B].
      destruct E3 as [Ba La]. destruct (N.eqb_spec (lenN v - 1) 4) as [L|L]; [|discriminate E2]. rewrite L in La.
      eexists. split; [unfold sa_from_octets; rewrite La; reflexivity|]. split; [apply len_nat, La|exact Ba].
    + inv_bind H.
      * do 2 inv_bind H. injection H as <-. left. cbn [valid_ie]. unfold at_ofs in E4. apply rdN_bytes in E4; [|apply bytes_ok_dropN, B].
        destruct E4 as [Ba La]. destruct (N.eqb_spec (lenN v - 1) 16) as [L|L]; [|discriminate E3]. rewrite L in La.
        eexists. split; [unfold sa_from_octets; rewrite La; reflexivity|]. split; [apply len_nat, La|exact Ba].
      * inv_bind H. inv_bind H. inv_bind H. destruct x1 as [s|]; [|discriminate]. injection H as <-. right. split; [left; reflexivity|].
        exists s. split; [reflexivity|]. apply dec_name_valid in E5; [|apply bytes_ok_dropN, B|lia]. destruct E5 as [Hs Hl]. split; [exact Hs|lia].
  - left. repeat inv_bind H. injection H as <-. cbn [valid_ie]. apply rdN_bytes in E; [|exact B]. destruct E as [Bb L]. split.
    + rewrite app_length, zeros_length. unfold lenN in *. lia.
    + apply bytes_ok_app. split; [exact Bb|]. clear. induction (N.to_nat _) as [|n IH]; cbn [zeros]; constructor; [reflexivity|exact IH].
  - left. repeat inv_bind H. injection H as <-. cbn [valid_ie]. apply rdN_bytes in E0; [|exact B]. destruct E0 as [Bb L]. split; [apply len_nat, L|exact Bb].
  - left. repeat inv_bind H. injection H as <-. destruct x2 as [a o]. cbn [valid_ie fst fs_seid fs_addr].
    apply dec_addrs_valid in E2; [|exact B]. unfold at_ofs in E1. apply rdN_bytes in E1; [|apply bytes_ok_dropN, B]. destruct E1 as [Bs Ls].
    split; [|apply E2]. apply be_get_bound in Bs. rewrite Ls in Bs. exact Bs.
  - left. repeat inv_bind H; injection H as <-; cbn [valid_ie].
    + destruct x2 as [a o]. cbn [fst]. apply take_bytes in E1; [|exact B]. destruct E1 as [Bs Ls]. apply dec_addrs_valid in E2; [|exact B].
      split; [|apply E2]. apply be_get_bound in Bs. rewrite Ls in Bs. exact Bs.
    + apply take_bytes in E2; [|exact B]. destruct E2 as [Bs Ls]. apply be_get_bound in Bs. rewrite Ls in Bs. exact Bs.
    + reflexivity.
  - left. repeat inv_bind H. injection H as <-. cbn [valid_ie]. apply rdN_bytes in E0; [|exact B]. destruct E0 as [Bb L]. split.
    + rewrite app_length, zeros_length. unfold lenN in *. lia.
    + apply bytes_ok_app. split; [exact Bb|]. clear. induction (N.to_nat _) as [|n IH]; cbn [zeros]; constructor; [reflexivity|exact IH].
  - do 2 inv_bind H. destruct x0 as [s|]; [|discriminate]. injection H as <-. right. split; [right; reflexivity|].
    exists s. split; [reflexivity|]. apply dec_name_valid in E0; [|exact B|lia]. destruct E0 as [Hs Hl]. split; [exact Hs|lia].
  - left. do 2 inv_bind H. apply rdN_bytes in E0; [|exact B]. destruct E0 as [Bd Ld].
    destruct x0 as [|d0 [|d1 [|? ?]]]; try discriminate Ld; [|rewrite !lenN_cons in Ld; lia]. inversion Bd as [|? ? Hd0 Bd']; subst. inversion Bd' as [|? ? Hd1 _]; subst.
    rewrite oh_bits_of in H by exact Hd0. cbn [bind] in H. inv_bind H. destruct x0 as [t ot]. cbn [fst snd] in *.
    inv_bind H. destruct x0 as [a oa]. cbn [fst snd] in *. inv_bind H. destruct x0 as [p op]. cbn [fst snd] in *.
    inv_bind H. destruct x0 as [cc oc]. cbn [fst snd] in *. inv_bind H. destruct x0 as [ss os]. cbn [fst snd] in *.
    injection H as <-. cbn [valid_ie]. apply dec_addrs_valid in E1; [|exact B]. destruct E1 as (Ha & H4 & H6).
    apply dec_opt_valid in E0, E2, E3, E4; try exact B.
    exists d0, d1. cbn [oh_desc oh_teidp oh_teid oh_addr oh_portp oh_port oh_ctagp oh_ctag oh_stagp oh_stag].
    do 3 (split; [assumption || reflexivity|]). do 6 (split; [assumption || reflexivity|]). split; [exact Ha|].
    do 3 (split; [assumption|]). assumption.
  - left. repeat inv_bind H; injection H as <-; cbn [valid_ie or_desc or_extp or_ext opt_num].
    + split; [exact (B1 _ _ E0)|]. unfold at_ofs in E2. apply rdN_bytes in E2; [|apply bytes_ok_dropN, B]. destruct E2 as [Bb L].
      destruct (bytes_1 _ Bb L) as (b & -> & Hb). eauto.
    + split; [exact (B1 _ _ E0)|]. exists 0. auto.
  - left. repeat inv_bind H. injection H as <-. destruct x1 as [a oa], x2 as [d od], x3 as [p op]. cbn [fst snd] in *.
    cbn [valid_ie ue_chv6 ue_chv4 ue_dest ue_addr ue_delegp ue_deleg ue_plenp ue_plen].
    apply dec_addrs_valid in E0; [|exact B]. apply dec_opt_valid in E1, E2; try exact B. split; [apply E0|]. split; assumption.
Qed.

Theorem decoded_valid k v rest x : bytes_ok v -> tail_of k rest -> dec_of k (v ++ rest) (lenN v) = Ok x ->
  valid_ie k x
  \/ name_kind k /\ exists s, name_of x = Some s /\ Forall (fun b => 0 < b < 256) s /\ lenN s <= 253.
Proof.
  intros B T H. destruct (kind_dec k) as [->|Hk].
  - left. cbn [dec_of] in H. rewrite act_predef_nul in H by exact T. unfold dec_act_predef, osmo_strlcpy in H. inv_bind H.
    injection H as <-. cbn [valid_ie].
    assert (Bv : bytes_ok (v ++ [0])) by (apply bytes_ok_app; split; [exact B|repeat constructor]).
    inv_bind E. injection E as <-. rename x into n.
    assert (S : forall m n, bytes_ok m -> c_strlen m = Ok n -> Forall (fun b => 0 < b < 256) (takeN n m)).
    { clear. induction m as [|b m IH]; intros n Bm; cbn [c_strlen]; [discriminate|]. inversion Bm as [|? ? Hb Bm']; subst. destruct (N.eqb_spec b 0).
      - intros E. injection E as <-. constructor.
      - destruct (c_strlen m) as [n'| |] eqn:E; try discriminate. cbn [bind]. intros E'. injection E' as <-. unfold takeN.
        replace (N.to_nat (n' + 1)) with (S (N.to_nat n')) by lia. cbn [firstn]. constructor; [unfold byte_ok in Hb; lia|]. apply (IH n' Bm' eq_refl). }
    specialize (S _ _ Bv E0). split.
    + rewrite Forall_forall in *. intros b Hb. apply S. unfold takeN in *. destruct (N.le_gt_cases n (N.min 256 (lenN v + 1) - 1)).
      * rewrite N.min_r in Hb by assumption. exact Hb.
      * rewrite <- (firstn_skipn (N.to_nat (N.min (N.min 256 (lenN v + 1) - 1) n)) (firstn (N.to_nat n) (v ++ [0]))). apply in_or_app. left.
        rewrite firstn_firstn. replace (Nat.min _ _) with (N.to_nat (N.min (N.min 256 (lenN v + 1) - 1) n)) by lia. exact Hb.
    + unfold takeN, lenN. rewrite firstn_length. lia.
  - destruct (same_def_all k v Hk rest) as [E _]. rewrite E in H. eapply decoded_valid_self; eassumption.
Qed.

(* which names a name decoder returns *)
Lemma apn_char fuel v s : 1 <= lenN v -> apn_to_str fuel v (lenN v) = Ok (Some s) ->
  exists labels tail, labels <> [] /\ Forall (fun l => l <> []) (removelast labels) /\ s = join labels
    /\ v = wire_labels labels ++ tail /\ (tail <> [] -> last labels [1] = []).
Proof.
  revert v s. induction fuel as [|f IH]; intros v s Hv; [discriminate|]. cbn [apn_to_str].
  destruct (N.eqb_spec (lenN v) 0); [lia|]. destruct v as [|lab m']; [discriminate|].
  destruct (N.eqb_spec lab 0) as [->|Hlab].
  { intros E. injection E as <-. exists [[]], m'. repeat split; [discriminate|constructor]. }
  destruct (N.ltb_spec (lenN (lab :: m')) (lab + 1)) as [L|L]; [discriminate|]. rewrite lenN_cons in *.
  rewrite rdN_ok by lia. cbn [bind].
  assert (El : lenN (takeN lab m') = lab) by (apply lenN_takeN; lia).
  assert (Hne : takeN lab m' <> []). { intros E. rewrite E in El. change (lenN (@nil N)) with 0 in El. lia. }
  replace (1 + lenN m' - (lab + 1)) with (lenN (dropN lab m')) by (rewrite lenN_dropN; lia).
  destruct (apn_to_str f (dropN lab m') (lenN (dropN lab m'))) as [[s'|]|e|u] eqn:E3; try discriminate. cbn [bind].
  destruct (N.eqb_spec (lenN (dropN lab m')) 0) as [E0|E0].
  - intros E. injection E as <-. destruct f as [|f']; [discriminate|]. cbn [apn_to_str] in E3.
    rewrite E0 in E3. change (0 =? 0) with true in E3. injection E3 as <-.
    apply lenN_0 in E0. exists [takeN lab m'], []. cbn [removelast join app]. repeat split.
    + discriminate.
    + constructor.
    + apply app_nil_r.
    + unfold wire_labels. cbn [map concat]. rewrite !app_nil_r, El. f_equal. rewrite <- (takeN_dropN lab m') at 1. rewrite E0, app_nil_r. reflexivity.
    + intros H. congruence.
  - apply IH in E3; [|lia]. destruct E3 as (labels & tail & Hn & Hr & -> & Ev & Ht). intros E. injection E as <-.
    exists (takeN lab m' :: labels), tail. destruct labels as [|l2 ls]; [congruence|]. repeat split.
    + discriminate.
    + change (removelast (takeN lab m' :: l2 :: ls)) with (takeN lab m' :: removelast (l2 :: ls)). constructor; assumption.
    + change (wire_labels (takeN lab m' :: l2 :: ls)) with ((lenN (takeN lab m') :: takeN lab m') ++ wire_labels (l2 :: ls)).
      rewrite El, <- app_assoc, <- Ev. cbn [app]. rewrite takeN_dropN. reflexivity.
    + intros H. apply Ht in H. exact H.
Qed.

(* If the labels on the wire are free of NUL and '.', the decoded name is valid *)
Lemma net_inst_valid v rest s : dec_of KNetInst (v ++ rest) (lenN v) = Ok (IvStr s) ->
  exists labels tail, v = wire_labels labels ++ tail /\ s = cstr (join labels) /\ (Forall label_ok labels -> valid_ie KNetInst (IvStr s)).
Proof.
  intros H. destruct (same_def_all KNetInst v) with (rest := rest) as [E _]; [discriminate|]. rewrite E in H. clear E. cbn [dec_of] in H.
  unfold dec_network_inst, dec_name in H. inv_bind H. destruct (apn_to_str _ v (lenN v)) as [[s'|]|e|u] eqn:Ea; try discriminate. cbn [bind] in H.
  destruct (N.ltb_spec 254 (lenN s' + 1)); [discriminate|]. cbn [bind] in H. injection H as <-.
  apply apn_char in Ea; [|lia]. destruct Ea as (labels & tail & Hn & Hr & -> & Ev & Ht). exists labels, tail. split; [exact Ev|]. split; [reflexivity|].
  intros Hl. rewrite cstr_id by (apply join_chars, Hl). exists labels. split; [split; [exact Hn|split; [exact Hl|exact Hr]]|]. split; [reflexivity|lia].
Qed.

(* decode, encode, decode of a Network Instance with a '.' inside a label *)
Lemma name_not_stable :
  dec_of KNetInst [1; 46] 2 = Ok (IvStr [46]) /\ enc_of KNetInst 100 (IvStr [46]) = ([0; 0], None)
  /\ dec_of KNetInst [0; 0] 2 = Ok (IvStr []).
Proof. repeat split; vm_compute; reflexivity. Qed.

(* ---------------------------------------------------------------- in the form of the property theorems *)

Lemma ie_encode_decode k v room bs rest : valid_ie k v -> enc_of k room v = (bs, None) -> (k = KActPredef -> In 0 rest) ->
  wire_ie k v bs /\ dec_of k (bs ++ rest) (lenN bs) = Ok v.
Proof.
  intros H E R. destruct (wire_exists k v H) as (bs' & W).
  assert (bs = bs') as ->; [|split; [exact W|apply ie_dec; assumption]].
  eapply (ie_det k v); [reflexivity|exact E|]. apply (ie_enc k v bs' (lenN bs')); [exact H|exact W|lia].
Qed.
Lemma dec_safe k v rest : k <> KActPredef ->
  (forall u, dec_of k (v ++ rest) (lenN v) <> UB u) /\ dec_of k (v ++ rest) (lenN v) = dec_of k v (lenN v).
Proof.
  intros Hk. destruct (same_def_all k v Hk rest) as [E U]. rewrite E. split; [|reflexivity]. intros u Eu. rewrite Eu in U. discriminate.
Qed.
Lemma act_predef_safe v rest : In 0 rest ->
  (forall u, dec_of KActPredef (v ++ rest) (lenN v) <> UB u)
  /\ dec_of KActPredef (v ++ rest) (lenN v) = dec_of KActPredef (v ++ [0]) (lenN v).
Proof.
  intros H. split; [|apply act_predef_nul, H]. intros u. cbn [dec_of]. destruct (act_predef_def v rest H) as (s & ->). discriminate.
Qed.
Lemma tail_of_intro k rest : (k = KActPredef -> In 0 rest) -> tail_of k rest.
Proof. destruct k; intros H; try exact I. apply H. reflexivity. Qed.
Lemma dec_shape k m len x : dec_of k m len = Ok x -> name_kind k -> forall s, name_of x = Some s ->
  (k = KNodeId /\ x = IvNode (NodeFqdn s)) \/ (k = KNetInst /\ x = IvStr s).
Proof.
  intros H [->| ->] s Hs; cbn [dec_of] in H; [left|right]; (split; [reflexivity|]).
  - unfold dec_node_id in H. repeat inv_bind H; try (injection H as <-; discriminate).
    match type of H with context [match ?z with Some _ => _ | None => _ end] => destruct z end; [|discriminate].
    injection H as <-. injection Hs as <-. reflexivity.
  - unfold dec_network_inst in H. repeat inv_bind H.
    match type of H with context [match ?z with Some _ => _ | None => _ end] => destruct z end; [|discriminate].
    injection H as <-. injection Hs as <-. reflexivity.
Qed.
Lemma decoded_in_range k v rest x : bytes_ok v -> (k = KActPredef -> In 0 rest) -> dec_of k (v ++ rest) (lenN v) = Ok x ->
  valid_ie k x
  \/ ((k = KNodeId /\ exists s, x = IvNode (NodeFqdn s) /\ Forall (fun b => 0 < b < 256) s /\ lenN s <= 253)
      \/ (k = KNetInst /\ exists s, x = IvStr s /\ Forall (fun b => 0 < b < 256) s /\ lenN s <= 253)).
Proof.
  intros B T H. destruct (decoded_valid k v rest x B (tail_of_intro k rest T) H) as [V|(K & s & Hs & Hc & Hl)]; [left; exact V|right].
  destruct (dec_shape _ _ _ _ H K s Hs) as [[-> ->]|[-> ->]]; [left|right]; (split; [reflexivity|]); exists s; auto.
Qed.
Lemma decode_encode_stable k v rest x : bytes_ok v -> k <> KNodeId -> k <> KNetInst -> (k = KActPredef -> In 0 rest) ->
  dec_of k (v ++ rest) (lenN v) = Ok x ->
  exists bs, (forall room, lenN bs <= room -> enc_of k room x = (bs, None))
    /\ forall rest', (k = KActPredef -> In 0 rest') -> dec_of k (bs ++ rest') (lenN bs) = Ok x.
Proof.
  intros B K1 K2 T H. destruct (decoded_in_range k v rest x B T H) as [V|[[-> _]|[-> _]]]; try congruence.
  destruct (wire_exists k x V) as (bs & W). exists bs. split.
  - intros room R. apply ie_enc; assumption.
  - intros rest' R. apply ie_dec; assumption.
Qed.
Lemma fqdn_valid v rest s : dec_of KNodeId (2 :: v ++ rest) (1 + lenN v) = Ok (IvNode (NodeFqdn s)) ->
  exists labels tail, v = wire_labels labels ++ tail /\ s = cstr (join labels) /\ (Forall label_ok labels -> valid_ie KNodeId (IvNode (NodeFqdn s))).
Proof.
  intros H. cbn [dec_of] in H. unfold dec_node_id in H. inv_bind H.
  assert (E0 : rd_be 1 (2 :: v ++ rest) = Ok 2).
  { unfold rd_be. change (2 :: v ++ rest) with ([2] ++ (v ++ rest)). rewrite rdN_app' by reflexivity. reflexivity. }
  rewrite E0 in H. cbn [bind] in H. change (2 =? 0) with false in H. change (2 =? 1) with false in H. change (2 =? 2) with true in H. cbn iota in H.
  replace (1 + lenN v - 1) with (lenN v) in H by lia. inv_bind H. rewrite dropN_cons in H.
  apply orb_false_elim in E1. destruct E1 as [E1 E2].
  destruct (same_def_name 254 v) with (rest := rest) as [En _]; [lia|lia|]. rewrite En in H. clear En. unfold dec_name in H.
  destruct (apn_to_str _ v (lenN v)) as [[s'|]|e|u] eqn:Ea; try discriminate. cbn [bind] in H.
  destruct (N.ltb_spec 254 (lenN s' + 1)); [discriminate|]. cbn [bind] in H. injection H as <-.
  apply apn_char in Ea; [|lia]. destruct Ea as (labels & tail & Hn & Hr & -> & Ev & Ht). exists labels, tail. split; [exact Ev|]. split; [reflexivity|].
  intros Hl. rewrite cstr_id by (apply join_chars, Hl). exists labels. split; [split; [exact Hn|split; [exact Hl|exact Hr]]|]. split; [reflexivity|lia].
Qed.
