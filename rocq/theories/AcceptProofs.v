(* AcceptProofs.v -- the IE decoders and the message tables accept exactly what AcceptSpec.v says *)
From Verif Require Import Base BaseProofs GtlvModel GtlvSpec GtlvProofs DecEncModel DecEncSpec DecEncProofs DecOrdProofs
  DecCharProofs RtProofs OrdMandProofs EncShapeProofs WfProofs GtlvInst IesModel IesSpec IesProofs TablesModel MsgModel MsgSpec
  MsgProofs AcceptSpec.

(* ---------------------------------------------------------------- single IEs *)

Definition okd {A} (r : res A) : Prop := exists x, r = Ok x.

Lemma okd_ok {A} (x : A) : okd (Ok x) <-> True.
Proof. split; [trivial|intros _; exists x; reflexivity]. Qed.
Lemma okd_err {A} e : okd (A := A) (Err e) <-> False.
Proof. split; [intros [x H]; discriminate|contradiction]. Qed.
Lemma okd_ub {A} u : okd (A := A) (UB u) <-> False.
Proof. split; [intros [x H]; discriminate|contradiction]. Qed.

Lemma flag_bit f k : flag f (2 ^ k) = N.testbit f k.
Proof.
  unfold flag. destruct (N.testbit f k) eqn:E.
  - destruct (N.eqb_spec (N.land f (2 ^ k)) 0) as [H|H]; [|reflexivity].
    apply (f_equal (fun x => N.testbit x k)) in H. rewrite N.land_spec, N.pow2_bits_true, N.bits_0, E in H. discriminate.
  - destruct (N.eqb_spec (N.land f (2 ^ k)) 0) as [H|H]; [reflexivity|]. exfalso. apply H. apply N.bits_inj. intros i.
    rewrite N.land_spec, N.bits_0. destruct (N.eq_dec k i) as [<-|Hn]; [rewrite E; reflexivity|].
    rewrite N.pow2_bits_false by assumption. apply andb_false_r.
Qed.

Lemma take_self v ofs n : 1 <= n ->
  (ofs + n <= lenN v /\ take v (lenN v) ofs n = Ok (takeN n (dropN ofs v)))
  \/ (lenN v < ofs + n /\ take v (lenN v) ofs n = Err EINVAL).
Proof.
  intros Hn. unfold take. destruct (N.ltb_spec (lenN v - ofs) n).
  - right. split; [lia|reflexivity].
  - left. split; [lia|]. pose proof (at_ofs_app_le v [] ofs n) as H'. rewrite app_nil_r in H'. apply H'. lia.
Qed.

Lemma dec_addrs_self v ofs v4 v6 : ofs <= lenN v ->
  (ofs + 4 * b2 v4 + 16 * b2 v6 <= lenN v /\ exists a, dec_addrs v (lenN v) ofs v4 v6 = Ok (a, ofs + 4 * b2 v4 + 16 * b2 v6))
  \/ (lenN v < ofs + 4 * b2 v4 + 16 * b2 v6 /\ exists e, dec_addrs v (lenN v) ofs v4 v6 = Err e).
Proof.
  intros Ho. unfold dec_addrs. destruct v4; cbn [b2].
  - destruct (take_self v ofs 4) as [[H ->]|[H ->]]; [lia| |right; split; [destruct v6; cbn [b2]; lia|exists EINVAL; reflexivity]]. cbn [bind].
    destruct v6; cbn [b2 bind].
    + destruct (take_self v (ofs + 4) 16) as [[H' ->]|[H' ->]]; [lia| |right; split; [lia|exists EINVAL; reflexivity]]. cbn [bind].
      left. split; [lia|]. eexists. do 2 f_equal; lia.
    + left. split; [lia|]. eexists. do 2 f_equal; lia.
  - cbn [bind]. destruct v6; cbn [b2 bind].
    + destruct (take_self v ofs 16) as [[H' ->]|[H' ->]]; [lia| |right; split; [lia|exists EINVAL; reflexivity]]. cbn [bind].
      left. split; [lia|]. eexists. do 2 f_equal; lia.
    + left. split; [lia|]. eexists. do 2 f_equal; lia.
Qed.

Lemma dec_opt_self v ofs n p : 1 <= n -> ofs <= lenN v ->
  (ofs + n * b2 p <= lenN v /\ exists a, dec_opt v (lenN v) ofs n p = Ok (a, ofs + n * b2 p))
  \/ (lenN v < ofs + n * b2 p /\ exists e, dec_opt v (lenN v) ofs n p = Err e).
Proof.
  intros Hn Ho. unfold dec_opt. destruct p; cbn [b2].
  - destruct (take_self v ofs n) as [[H ->]|[H ->]]; [lia| |right; split; [lia|exists EINVAL; reflexivity]]. cbn [bind].
    left. split; [lia|]. eexists. do 2 f_equal; lia.
  - left. split; [lia|]. eexists. do 2 f_equal; lia.
Qed.

Lemma rd_be_self n v : n <= lenN v -> rd_be n v = Ok (be_get (takeN n v)).
Proof. intros H. pose proof (rd_be_app_le n v [] H) as E. rewrite app_nil_r in E. exact E. Qed.
Lemma rdN_self n v : n <= lenN v -> rdN n v = Ok (takeN n v).
Proof. apply rdN_ok. Qed.
Lemma be_get_1 v : 1 <= lenN v -> be_get (takeN 1 v) = nth 0 v 0.
Proof. destruct v as [|b v]; [change (lenN (@nil N)) with 0; lia|]. intros _. reflexivity. Qed.

Lemma obit_b2 v i k : obit v i k = b2 (oset v i k).
Proof. reflexivity. Qed.

Lemma flag_o v k : flag (nth 0 v 0) (2 ^ k) = oset v 0 k.
Proof. apply flag_bit. Qed.

(* names *)
Lemma wire_labels_cons l ls : wire_labels (l :: ls) = (lenN l :: l) ++ wire_labels ls.
Proof. reflexivity. Qed.

Lemma apn_accept fuel v : (length v < fuel)%nat ->
  (name_wire v /\ exists s, apn_to_str fuel v (lenN v) = Ok (Some s)) \/ (~ name_wire v /\ apn_to_str fuel v (lenN v) = Ok None).
Proof.
  revert v. induction fuel as [|f IH]; intros v Hf; [lia|]. cbn [apn_to_str].
  destruct v as [|lab v].
  - left. split; [|eexists; reflexivity]. exists [], []. repeat split; auto.
  - rewrite lenN_cons. destruct (N.eqb_spec (1 + lenN v) 0); [lia|]. destruct (N.eqb_spec lab 0) as [->|Hl].
    + left. split; [|eexists; reflexivity]. exists [], (0 :: v). repeat split; eauto.
    + destruct (N.ltb_spec (1 + lenN v) (lab + 1)) as [Hlt|Hge].
      * right. split; [|reflexivity]. intros (labels & tail & E & Hne & Ht). destruct labels as [|l ls].
        -- cbn in E. subst tail. destruct Ht as [Ht|[t Ht]]; [discriminate|]. injection Ht as -> _. lia.
        -- rewrite wire_labels_cons in E. cbn [app] in E. injection E as -> E. subst v. rewrite !lenN_app in Hlt. lia.
      * rewrite rdN_self by lia. cbn [bind]. replace (1 + lenN v - (lab + 1)) with (lenN (dropN lab v)) by (rewrite lenN_dropN; lia).
        assert (El : lenN (takeN lab v) = lab) by (apply lenN_takeN; lia).
        destruct (IH (dropN lab v)) as [[Hw [s Es]]|[Hw Es]].
        { unfold dropN. rewrite skipn_length. cbn [length] in Hf. lia. }
        -- rewrite Es. cbn [bind]. left. split; [|eexists; reflexivity]. destruct Hw as (labels & tail & E & Hne & Ht).
           exists (takeN lab v :: labels), tail. split; [|split; [|exact Ht]].
           ++ rewrite wire_labels_cons, El. cbn [app]. rewrite <- app_assoc, <- E, takeN_dropN. reflexivity.
           ++ constructor; [|exact Hne]. intros E0. rewrite E0 in El. change (lenN (@nil N)) with 0 in El. lia.
        -- rewrite Es. cbn [bind]. right. split; [|reflexivity]. intros (labels & tail & E & Hne & Ht). apply Hw.
           destruct labels as [|l ls].
           ++ cbn in E. subst tail. destruct Ht as [Ht|[t Ht]]; [discriminate|]. injection Ht as -> _. lia.
           ++ rewrite wire_labels_cons in E. cbn [app] in E. injection E as -> E. exists ls, tail. split; [|split; [inversion Hne; assumption|exact Ht]].
              subst v. rewrite <- app_assoc. unfold dropN. rewrite skipn_app.
              replace (N.to_nat (lenN l)) with (length l) by (unfold lenN; lia). rewrite skipn_all, Nat.sub_diag. reflexivity.
Qed.

Lemma dec_name_accept v : 1 <= lenN v -> lenN v <= 254 ->
  (name_wire v /\ exists s, dec_name v (lenN v) 254 = Ok (Some s)) \/ (~ name_wire v /\ dec_name v (lenN v) 254 = Ok None).
Proof.
  intros H1 H2. unfold dec_name. destruct (apn_accept (S (N.to_nat (lenN v))) v) as [[Hw [s E]]|[Hw E]].
  - unfold lenN. lia.
  - rewrite E. cbn [bind]. pose proof (apn_len _ _ _ _ E) as Hl. destruct (N.ltb_spec 254 (lenN s + 1)); [lia|]. left. eauto.
  - rewrite E. right. auto.
Qed.

Ltac fin := first [ rewrite okd_ok | rewrite okd_err ]; split; intros; try lia; try tauto.

Lemma ie_accept_self k v : k <> KActPredef -> (okd (dec_of k v (lenN v)) <-> ie_accept k v).
Proof.
  intros Hk. destruct k; cbn [dec_of ie_accept]; try congruence; clear Hk.
  - unfold dec_cause. destruct (N.eqb_spec (lenN v) 1); cbn [negb]; [rewrite rd_be_self by lia; cbn [bind]|]; fin.
  - unfold dec_offending_ie. destruct (N.eqb_spec (lenN v) 2); cbn [negb]; [rewrite rd_be_self by lia; cbn [bind]|]; fin.
  - unfold dec_8. destruct (N.ltb_spec (lenN v) 1); [|rewrite rd_be_self by lia; cbn [bind]]; fin.
  - unfold dec_16be. destruct (N.ltb_spec (lenN v) 2); [|rewrite rd_be_self by lia; cbn [bind]]; fin.
  - unfold dec_32be. destruct (N.ltb_spec (lenN v) 4); [|rewrite rd_be_self by lia; cbn [bind]]; fin.
  - unfold dec_3gpp_iface_type. destruct (N.ltb_spec (lenN v) 1); [|rewrite rd_be_self by lia; cbn [bind]]; fin.
  - unfold dec_iface. destruct (N.ltb_spec (lenN v) 1); [|rewrite rd_be_self by lia; cbn [bind]]; fin.
  - unfold dec_iface. destruct (N.ltb_spec (lenN v) 1); [|rewrite rd_be_self by lia; cbn [bind]]; fin.
  - (* Node ID *)
    unfold dec_node_id. destruct (N.ltb_spec (lenN v) 1) as [H|H].
    { destruct v as [|b v]; [fin|rewrite lenN_cons in H; lia]. }
    destruct v as [|t a]; [change (lenN (@nil N)) with 0 in H; lia|]. rewrite rd_be_self by lia. cbn [bind]. rewrite be_get_1 by lia.
    cbn [nth]. rewrite lenN_cons. replace (1 + lenN a - 1) with (lenN a) by lia.
    destruct (N.eqb_spec t 0) as [->|H0].
    { destruct (N.eqb_spec (lenN a) 4); cbn [negb]; [|fin].
      pose proof (at_ofs_app_le (0 :: a) [] 1 (lenN a)) as E'. rewrite app_nil_r in E'. rewrite E' by (rewrite lenN_cons; lia). cbn [bind]. fin. }
    destruct (N.eqb_spec t 1) as [->|H1].
    { destruct (N.eqb_spec (lenN a) 16); cbn [negb]; [|fin].
      pose proof (at_ofs_app_le (1 :: a) [] 1 (lenN a)) as E'. rewrite app_nil_r in E'. rewrite E' by (rewrite lenN_cons; lia). cbn [bind]. fin. }
    destruct (N.eqb_spec t 2) as [->|H2].
    { destruct (N.ltb_spec (lenN a) 1); cbn [orb]; [fin|]. destruct (N.ltb_spec 254 (lenN a)); cbn [orb]; [fin|].
      rewrite dropN_cons. destruct (dec_name_accept a) as [[Hw [s ->]]|[Hw ->]]; try lia; cbn [bind].
      - rewrite okd_ok. split; [intros _; split; [lia|exact Hw]|trivial].
      - rewrite okd_err. tauto. }
    rewrite okd_err. split; [contradiction|]. destruct t as [|[p|[p|p|]|]]; try congruence; auto.
  - unfold dec_up_ff, dec_bits_padded. rewrite rdN_self by lia. cbn [bind]. fin.
  - unfold dec_cp_ff. destruct (N.ltb_spec (lenN v) 1); [|rewrite rdN_self by lia; cbn [bind]]; fin.
  - (* F-SEID *)
    unfold dec_f_seid. rewrite !obit_b2. destruct (N.ltb_spec (lenN v) 9); [fin|]. rewrite rd_be_self by lia. cbn [bind]. rewrite be_get_1 by lia.
    pose proof (at_ofs_app_le v [] 1 8) as E'. rewrite app_nil_r in E'. rewrite E' by lia. cbn [bind].
    change 2 with (2 ^ 1) at 1. change 1 with (2 ^ 0) at 2. rewrite !flag_o.
    destruct (dec_addrs_self v 9 (oset v 0 1) (oset v 0 0)) as [[H' [a ->]]|[H' [e ->]]]; [lia|cbn [bind]; fin|cbn [bind]; fin].
  - (* F-TEID *)
    unfold dec_f_teid. rewrite !obit_b2. destruct (take_self v 0 1) as [[H ->]|[H ->]]; [lia| |cbn [bind]; fin]. cbn [bind].
    change (dropN 0 v) with v. rewrite be_get_1 by lia. cbv zeta.
    change 4 with (2 ^ 2) at 1. rewrite !flag_o. destruct (oset v 0 2); cbn [negb].
    + change 8 with (2 ^ 3). rewrite !flag_o. destruct (oset v 0 3); cbn [b2].
      * destruct (take_self v 1 1) as [[H1 ->]|[H1 ->]]; [lia|cbn [bind]; fin|cbn [bind]; fin].
      * fin.
    + destruct (take_self v 1 4) as [[H1 ->]|[H1 ->]]; [lia| |cbn [bind]; fin]. cbn [bind].
      change (flag (nth 0 v 0) 1) with (flag (nth 0 v 0) (2 ^ 0)). change (flag (nth 0 v 0) 2) with (flag (nth 0 v 0) (2 ^ 1)). rewrite !flag_o.
      destruct (dec_addrs_self v 5 (oset v 0 0) (oset v 0 1)) as [[H' [a ->]]|[H' [e ->]]]; [lia|cbn [bind]; fin|cbn [bind]; fin].
  - unfold dec_apply_action. destruct (N.ltb_spec (lenN v) 1); [fin|]. unfold dec_bits_padded. rewrite rdN_self by lia. cbn [bind]. fin.
  - (* Network Instance *)
    unfold dec_network_inst. destruct (N.ltb_spec (lenN v) 1); cbn [orb]; [fin|]. destruct (N.ltb_spec 254 (lenN v)); cbn [orb]; [fin|].
    destruct (dec_name_accept v) as [[Hw [s ->]]|[Hw ->]]; try lia; cbn [bind].
    + rewrite okd_ok. split; [intros _; split; [lia|exact Hw]|trivial].
    + rewrite okd_err. tauto.
  - (* Outer Header Creation *)
    unfold dec_ohc. rewrite !obit_b2. destruct (N.ltb_spec (lenN v) 2); [fin|]. rewrite rdN_self by lia. cbn [bind].
    destruct v as [|d0 [|d1 v]]; [exfalso; apply H; reflexivity|exfalso; apply H; reflexivity|]. change (takeN 2 (d0 :: d1 :: v)) with [d0; d1]. set (w := d0 :: d1 :: v) in *.
    assert (Eb : oh_bits [d0; d1] = Ok (oset w 0 0 || oset w 0 1, oset w 0 0 || oset w 0 2 || oset w 0 4,
      oset w 0 1 || oset w 0 3 || oset w 0 5, oset w 0 2 || oset w 0 3, oset w 0 6, oset w 0 7)).
    { unfold oh_bits, bits_get. cbn [N.to_nat]. 
      assert (Hb : forall k, k < 8 -> negb (N.land d0 (2 ^ (k mod 8)) =? 0) = oset w 0 k).
      { intros k Hk. rewrite N.mod_small by assumption. exact (flag_bit d0 k). }
      change (N.to_nat (0 / 8)) with 0%nat. change (N.to_nat (1 / 8)) with 0%nat. change (N.to_nat (2 / 8)) with 0%nat.
      change (N.to_nat (3 / 8)) with 0%nat. change (N.to_nat (4 / 8)) with 0%nat. change (N.to_nat (5 / 8)) with 0%nat.
      change (N.to_nat (6 / 8)) with 0%nat. change (N.to_nat (7 / 8)) with 0%nat. cbn [nth_error bind].
      rewrite !Hb by reflexivity. reflexivity. }
    rewrite Eb. cbn [bind]. cbv zeta.
    destruct (dec_opt_self w 2 4 (oset w 0 0 || oset w 0 1)) as [[H1 [a1 ->]]|[H1 [e ->]]]; [lia|lia| |cbn [bind]; fin]. cbn [bind snd fst].
    destruct (dec_addrs_self w (2 + 4 * b2 (oset w 0 0 || oset w 0 1)) (oset w 0 0 || oset w 0 2 || oset w 0 4) (oset w 0 1 || oset w 0 3 || oset w 0 5))
      as [[H2 [a2 ->]]|[H2 [e ->]]]; [lia| |cbn [bind]; fin]. cbn [bind snd fst].
    match goal with |- context [dec_opt w (lenN w) ?o 2 ?p] => destruct (dec_opt_self w o 2 p) as [[H3 [a3 ->]]|[H3 [e ->]]] end; [lia|lia| |cbn [bind]; fin].
    cbn [bind snd fst].
    match goal with |- context [dec_opt w (lenN w) ?o 3 (oset w 0 6)] => destruct (dec_opt_self w o 3 (oset w 0 6)) as [[H4 [a4 ->]]|[H4 [e ->]]] end; [lia|lia| |cbn [bind]; fin].
    cbn [bind snd fst].
    match goal with |- context [dec_opt w (lenN w) ?o 3 (oset w 0 7)] => destruct (dec_opt_self w o 3 (oset w 0 7)) as [[H5 [a5 ->]]|[H5 [e ->]]] end; [lia|lia| |cbn [bind]; fin].
    cbn [bind]. fin.
  - unfold dec_ohr. destruct (N.ltb_spec (lenN v) 1); [fin|]. rewrite rd_be_self by lia. cbn [bind].
    destruct (N.ltb_spec 1 (lenN v)); [|fin]. pose proof (at_ofs_app_le v [] 1 1) as E'. rewrite app_nil_r in E'. rewrite E' by lia. cbn [bind]. fin.
  - (* UE IP Address *)
    unfold dec_ue_ip. rewrite !obit_b2. destruct (take_self v 0 1) as [[H ->]|[H ->]]; [lia| |cbn [bind]; fin]. cbn [bind].
    change (dropN 0 v) with v. rewrite be_get_1 by lia. cbv zeta.
    change (flag (nth 0 v 0) 1) with (flag (nth 0 v 0) (2 ^ 0)). change (flag (nth 0 v 0) 2) with (flag (nth 0 v 0) (2 ^ 1)).
    change (flag (nth 0 v 0) 8) with (flag (nth 0 v 0) (2 ^ 3)). change (flag (nth 0 v 0) 64) with (flag (nth 0 v 0) (2 ^ 6)).
    rewrite !flag_o.
    destruct (dec_addrs_self v 1 (oset v 0 1) (oset v 0 0)) as [[H1 [a1 ->]]|[H1 [e ->]]]; [lia| |cbn [bind]; fin]. cbn [bind snd fst].
    match goal with |- context [dec_opt v (lenN v) ?o 1 (oset v 0 3)] => destruct (dec_opt_self v o 1 (oset v 0 3)) as [[H4 [a4 ->]]|[H4 [e ->]]] end; [lia|lia| |cbn [bind]; fin].
    cbn [bind snd fst].
    match goal with |- context [dec_opt v (lenN v) ?o 1 (oset v 0 6)] => destruct (dec_opt_self v o 1 (oset v 0 6)) as [[H5 [a5 ->]]|[H5 [e ->]]] end; [lia|lia| |cbn [bind]; fin].
    cbn [bind]. fin.
Qed.

(* the decoders accept exactly the acceptable values *)
Lemma ie_accept_iff k v rest : (k = KActPredef -> In 0 rest) ->
  ((exists x, dec_of k (v ++ rest) (lenN v) = Ok x) <-> ie_accept k v).
Proof.
  intros Hr. destruct (kind_dec k) as [->|Hk].
  - split; [intros _; exact I|intros _]. destruct (act_predef_def v rest (Hr eq_refl)) as [s E]. exists (IvStr s). exact E.
  - destruct (dec_safe k v rest Hk) as [_ ->]. apply ie_accept_self, Hk.
Qed.

Lemma rdN_ext n v e : n <= lenN v -> rdN n (v ++ e) = rdN n v.
Proof. intros H. rewrite rdN_app_le, rdN_self by assumption. reflexivity. Qed.
Lemma rd_be_ext n v e : n <= lenN v -> rd_be n (v ++ e) = rd_be n v.
Proof. intros H. rewrite rd_be_app_le, rd_be_self by assumption. reflexivity. Qed.
Lemma at_ofs_ext v e ofs n : ofs + n <= lenN v -> at_ofs (v ++ e) ofs n = at_ofs v ofs n.
Proof. intros H. rewrite at_ofs_app_le by assumption. pose proof (at_ofs_app_le v [] ofs n H) as E. rewrite app_nil_r in E. symmetry. exact E. Qed.
Lemma take_ext v e ofs n b : 1 <= n -> take v (lenN v) ofs n = Ok b -> take (v ++ e) (lenN (v ++ e)) ofs n = Ok b.
Proof.
  intros Hn. unfold take. destruct (N.ltb_spec (lenN v - ofs) n); [discriminate|]. intros E. rewrite lenN_app.
  destruct (N.ltb_spec (lenN v + lenN e - ofs) n); [lia|]. rewrite at_ofs_ext by lia. exact E.
Qed.
Lemma dec_addrs_ext v e ofs v4 v6 x : dec_addrs v (lenN v) ofs v4 v6 = Ok x -> dec_addrs (v ++ e) (lenN (v ++ e)) ofs v4 v6 = Ok x.
Proof.
  unfold dec_addrs. intros H. destruct v4.
  - destruct (take v (lenN v) ofs 4) as [a| |] eqn:E; try discriminate. rewrite (take_ext v e ofs 4 a) by (assumption || lia). cbn [bind] in *.
    destruct v6; [|exact H]. destruct (take v (lenN v) (ofs + 4) 16) as [a6| |] eqn:E6; try discriminate.
    rewrite (take_ext v e (ofs + 4) 16 a6) by (assumption || lia). exact H.
  - cbn [bind] in *. destruct v6; [|exact H]. destruct (take v (lenN v) ofs 16) as [a6| |] eqn:E6; try discriminate.
    rewrite (take_ext v e ofs 16 a6) by (assumption || lia). exact H.
Qed.
Lemma dec_opt_ext v e ofs n p x : 1 <= n -> dec_opt v (lenN v) ofs n p = Ok x -> dec_opt (v ++ e) (lenN (v ++ e)) ofs n p = Ok x.
Proof.
  unfold dec_opt. intros Hn H. destruct p; [|exact H]. destruct (take v (lenN v) ofs n) as [a| |] eqn:E; try discriminate.
  rewrite (take_ext v e ofs n a) by assumption. exact H.
Qed.
Lemma lt_app_false {A} (v e : list A) n : (lenN v <? n) = false -> (lenN (v ++ e) <? n) = false.
Proof. rewrite lenN_app. intros H. destruct (N.ltb_spec (lenN v) n); [discriminate|]. apply N.ltb_ge. lia. Qed.

Lemma ie_extend_self k v e x : extendable k v -> dec_of k v (lenN v) = Ok x -> dec_of k (v ++ e) (lenN (v ++ e)) = Ok x.
Proof.
  intros Hx H. destruct k; cbn [dec_of extendable] in *; try contradiction.
  - unfold dec_8 in *. destruct (lenN v <? 1) eqn:L; [discriminate|]. rewrite (lt_app_false v e _ L), rd_be_ext by lia. exact H.
  - unfold dec_16be in *. destruct (lenN v <? 2) eqn:L; [discriminate|]. rewrite (lt_app_false v e _ L), rd_be_ext by lia. exact H.
  - unfold dec_32be in *. destruct (lenN v <? 4) eqn:L; [discriminate|]. rewrite (lt_app_false v e _ L), rd_be_ext by lia. exact H.
  - unfold dec_3gpp_iface_type in *. destruct (lenN v <? 1) eqn:L; [discriminate|]. rewrite (lt_app_false v e _ L), rd_be_ext by lia. exact H.
  - unfold dec_iface in *. destruct (lenN v <? 1) eqn:L; [discriminate|]. rewrite (lt_app_false v e _ L), rd_be_ext by lia. exact H.
  - unfold dec_iface in *. destruct (lenN v <? 1) eqn:L; [discriminate|]. rewrite (lt_app_false v e _ L), rd_be_ext by lia. exact H.
  - unfold dec_up_ff, dec_bits_padded in *. rewrite lenN_app. replace (N.min 6 (lenN v + lenN e)) with 6 by lia.
    replace (N.min 6 (lenN v)) with 6 in H by lia. rewrite rdN_ext by lia. exact H.
  - unfold dec_cp_ff in *. destruct (lenN v <? 1) eqn:L; [discriminate|]. rewrite (lt_app_false v e _ L), rdN_ext by lia. exact H.
  - unfold dec_f_seid in *. destruct (lenN v <? 9) eqn:L; [discriminate|]. rewrite (lt_app_false v e _ L), rd_be_ext, at_ofs_ext by lia.
    destruct (rd_be 1 v) as [f0| |]; try discriminate. cbn [bind] in *. destruct (at_ofs v 1 8) as [f1| |]; try discriminate. cbn [bind] in *. cbv zeta in *.
    destruct (dec_addrs v (lenN v) _ _ _) as [a| |] eqn:E; try discriminate.
    rewrite (dec_addrs_ext v e _ _ _ a E). exact H.
  - unfold dec_f_teid in *. destruct (take v (lenN v) 0 1) as [f| |] eqn:E0; try discriminate. rewrite (take_ext v e 0 1 f) by (assumption || lia).
    cbn [bind] in *. cbv zeta in *. destruct (flag (be_get f) 4); cbn [negb] in *.
    + destruct (flag (be_get f) 8); [|exact H]. destruct (take v (lenN v) 1 1) as [i| |] eqn:E1; try discriminate. rewrite (take_ext v e 1 1 i) by (assumption || lia). exact H.
    + destruct (take v (lenN v) 1 4) as [i| |] eqn:E1; try discriminate. rewrite (take_ext v e 1 4 i) by (assumption || lia). cbn [bind] in *.
      destruct (dec_addrs v (lenN v) _ _ _) as [a| |] eqn:E; try discriminate. rewrite (dec_addrs_ext v e _ _ _ a E). exact H.
  - unfold dec_apply_action in *. destruct (lenN v <? 1) eqn:L; [discriminate|]. rewrite (lt_app_false v e _ L). unfold dec_bits_padded in *.
    rewrite lenN_app. replace (N.min 2 (lenN v + lenN e)) with 2 by lia. replace (N.min 2 (lenN v)) with 2 in H by lia. rewrite rdN_ext by lia. exact H.
  - unfold dec_ohc in *. destruct (lenN v <? 2) eqn:L; [discriminate|]. rewrite (lt_app_false v e _ L), rdN_ext by lia.
    destruct (rdN 2 v) as [d| |]; try discriminate. cbn [bind] in *. destruct (oh_bits d) as [[[[[[b1 b2] b3] b4] b5] b6]| |]; try discriminate. cbn [bind] in *. cbv zeta in *.
    destruct (dec_opt v (lenN v) 2 4 b1) as [o1| |] eqn:E1; try discriminate. rewrite (fun h => dec_opt_ext v e _ _ _ _ h E1) by lia. cbn [bind] in *.
    destruct (dec_addrs v (lenN v) (snd o1) b2 b3) as [o2| |] eqn:E2; try discriminate. rewrite (dec_addrs_ext v e _ _ _ _ E2). cbn [bind] in *.
    destruct (dec_opt v (lenN v) (snd o2) 2 b4) as [o3| |] eqn:E3; try discriminate. rewrite (fun h => dec_opt_ext v e _ _ _ _ h E3) by lia. cbn [bind] in *.
    destruct (dec_opt v (lenN v) (snd o3) 3 b5) as [o4| |] eqn:E4; try discriminate. rewrite (fun h => dec_opt_ext v e _ _ _ _ h E4) by lia. cbn [bind] in *.
    destruct (dec_opt v (lenN v) (snd o4) 3 b6) as [o5| |] eqn:E5; try discriminate. rewrite (fun h => dec_opt_ext v e _ _ _ _ h E5) by lia. exact H.
  - unfold dec_ohr in *. destruct (lenN v <? 1) eqn:L; [discriminate|]. rewrite (lt_app_false v e _ L), rd_be_ext by lia.
    destruct (rd_be 1 v); try discriminate. cbn [bind] in *. rewrite lenN_app.
    destruct (N.ltb_spec 1 (lenN v)); [|lia]. destruct (N.ltb_spec 1 (lenN v + lenN e)); [|lia]. rewrite at_ofs_ext by lia. exact H.
  - unfold dec_ue_ip in *. destruct (take v (lenN v) 0 1) as [f| |] eqn:E0; try discriminate. rewrite (take_ext v e 0 1 f) by (assumption || lia).
    cbn [bind] in *. cbv zeta in *.
    destruct (dec_addrs v (lenN v) _ _ _) as [o2| |] eqn:E2; try discriminate. rewrite (dec_addrs_ext v e _ _ _ _ E2). cbn [bind] in *.
    destruct (dec_opt v (lenN v) (snd o2) 1 _) as [o3| |] eqn:E3; try discriminate. rewrite (fun h => dec_opt_ext v e _ _ _ _ h E3) by lia. cbn [bind] in *.
    destruct (dec_opt v (lenN v) (snd o3) 1 _) as [o4| |] eqn:E4; try discriminate. rewrite (fun h => dec_opt_ext v e _ _ _ _ h E4) by lia. exact H.
Qed.
Lemma ie_extend k v e rest rest' x : extendable k v -> dec_of k (v ++ rest) (lenN v) = Ok x ->
  dec_of k ((v ++ e) ++ rest') (lenN (v ++ e)) = Ok x.
Proof.
  intros Hx H. assert (Hk : k <> KActPredef) by (intros ->; exact Hx).
  destruct (dec_safe k v rest Hk) as [_ E1]. rewrite E1 in H. destruct (dec_safe k (v ++ e) rest' Hk) as [_ E2]. rewrite E2.
  apply ie_extend_self; assumption.
Qed.

(* ---------------------------------------------------------------- tables *)

Definition occ_head (h : chead) : occ :=
  if h_pres h then Optional else match h_multi h with Some (_, mand) => Many mand | None => Once end.
Fixpoint sh (p : pcoding) : ie :=
  match p with
  | PLeaf h k => Ie (ti_tag (h_ti h)) (occ_head h) k
  | PNest h l => Grp (ti_tag (h_ti h)) (occ_head h) (map sh l)
  end.
Lemma sh_iei p : iei_of (sh p) = ti_tag (h_ti (phead p)).
Proof. destruct p; reflexivity. Qed.
Lemma sh_occ p : occ_of (sh p) = occ_head (phead p).
Proof. destruct p; reflexivity. Qed.

(* entries as the generator writes them for PFCP *)
Definition head_std (h : chead) : Prop :=
  h_ti h = ti_of_tag (ti_tag (h_ti h)) /\ match h_multi h with Some (mx, _) => mx = 32 /\ h_pres h = false | None => True end.
Fixpoint all_std (p : pcoding) : Prop :=
  match p with
  | PLeaf h _ => head_std h
  | PNest h l => head_std h /\ fold_right (fun d acc => all_std d /\ acc) True l
  end.
Lemma all_std_head p : all_std p -> head_std (phead p).
Proof. destruct p; [trivial|intros [H _]; exact H]. Qed.

Lemma occ_head_ok h n : head_std h -> (count_ok h n <-> occ_ok (occ_head h) n).
Proof.
  intros [_ H]. unfold count_ok, occ_head. destruct (h_multi h) as [[mx mand]|].
  - destruct H as [-> ->]. cbn [occ_ok]. split; [intros (A & B & _); split; auto|]. intros [A B]. repeat split; auto. intros; discriminate.
  - destruct (h_pres h); cbn [occ_ok]; reflexivity.
Qed.

Definition plain_item (it : item) : N * list N := (ti_tag (fst it), snd it).
Lemma ti_of_tag_match a b : ti_match (ti_of_tag a) (ti_of_tag b) = (b =? a).
Proof.
  unfold ti_match, ti_cmp, osmo_cmp. cbn [ti_of_tag ti_tag ti_ipres ti_inst].
  destruct (N.ltb_spec a b); cbn; [destruct (N.eqb_spec b a); [lia|reflexivity]|].
  destruct (N.ltb_spec b a); cbn; destruct (N.eqb_spec b a); try lia; reflexivity.
Qed.

Lemma values_items d items : head_std (phead d) -> rep_items rep_t16l16v items ->
  values_of (iei_of (sh d)) (map plain_item items) = map snd (items_for (ptab d) items).
Proof.
  intros Hs Hi. unfold values_of, items_for. rewrite head_ptab, sh_iei. destruct Hs as [Et _]. rewrite Et. cbn [ti_of_tag ti_tag].
  set (t := ti_tag (h_ti (phead d))). clearbody t. induction items as [|[ti v] items IH]; [reflexivity|]. inversion Hi as [|? ? Hx Hi']; subst.
  cbn [map filter fst]. destruct Hx as (t' & E & _). cbn [fst] in E. subst ti. rewrite ti_of_tag_match. cbn [plain_item fst snd ti_of_tag ti_tag].
  destruct (t' =? t); cbn [map snd]; [f_equal|]; apply IH; assumption.
Qed.

Lemma ser_plain items : rep_items rep_t16l16v items -> ie_seq (ser hdr_t16l16v items) (map plain_item items).
Proof.
  intros H. split.
  - unfold ser. rewrite map_map. reflexivity.
  - apply Forall_map. eapply Forall_impl; [|exact H]. intros [ti v] (t & E & Ht & Hl). cbn [fst snd plain_item] in *. subst ti. cbn [ti_of_tag ti_tag].
    split; assumption.
Qed.
Lemma plain_ser v l : ie_seq v l -> exists items, rep_items rep_t16l16v items /\ v = ser hdr_t16l16v items /\ l = map plain_item items.
Proof.
  intros [Ev Hl]. exists (map (fun x => (ti_of_tag (fst x), snd x)) l). split; [|split].
  - apply Forall_map. eapply Forall_impl; [|exact Hl]. intros [t v'] [Ht Hv]. exists t. repeat split; assumption.
  - subst v. unfold ser. rewrite map_map. f_equal.
  - rewrite map_map. cbn [plain_item]. rewrite <- (map_id l) at 1. apply map_ext. intros [t v']. reflexivity.
Qed.

Lemma Forall2_exists {A B} (R : A -> B -> Prop) l : (exists s, Forall2 R l s) <-> Forall (fun x => exists y, R x y) l.
Proof.
  split.
  - intros [s H]. induction H; constructor; eauto.
  - induction 1 as [|x l [y Hy] _ [s Hs]]; [exists []; constructor|]. exists (y :: s). constructor; assumption.
Qed.

Lemma bytes_items (P : item -> Prop) items : bytes_ok (ser hdr_t16l16v items) -> Forall (fun it => bytes_ok (snd it)) items.
Proof.
  unfold ser. induction items as [|it items IH]; [constructor|]. cbn [map concat]. intros H. apply bytes_ok_app in H. destruct H as [H1 H2].
  constructor; [|auto]. unfold ser1 in H1. apply bytes_ok_app in H1. apply H1.
Qed.

Definition dec_iff (p : pcoding) : Prop := all_std p -> all_tables table_ok [ptab p] ->
  forall v rest, bytes_ok v -> In 0 rest -> ((exists x, dec_coding (ptab p) t16l16v false (v ++ rest) (lenN v) = Ok x) <-> content_ok (sh p) v).

(* one table: the members' conditions *)
Lemma body_iff ies d rest : Forall dec_iff ies -> Forall all_std ies -> all_tables table_ok (map ptab ies) -> bytes_ok d -> In 0 rest ->
  ((exists slots, gtlvs_decode t16l16v false (Some (map ptab ies)) (d ++ rest) (lenN d) = Ok slots) <-> body_ok (map sh ies) d).
Proof.
  intros Hp Hs [Ht Htn] Hb Hr. 
  assert (Hdec : forall slots, gtlvs_decode t16l16v false (Some (map ptab ies)) (d ++ rest) (lenN d) = Ok slots <->
    exists items, parse t16l16v d (lenN d) = Ok items /\ Forall2 (member_of t16l16v rest items) (map ptab ies) slots).
  { intros slots. apply (decode_unordered_iff NulTail); [exact t16_cfg_ok|exact NulTail_closed|exact Hr|apply tabs_local|apply tabs_cfgs| | | ];
      apply Ht. }
  assert (Hmem : forall items, bytes_ok (ser hdr_t16l16v items) -> rep_items rep_t16l16v items ->
    forall p, In p ies -> ((exists s, member_of t16l16v rest items (ptab p) s) <->
      (occ_ok (occ_of (sh p)) (lenN (values_of (iei_of (sh p)) (map plain_item items)))
       /\ Forall (content_ok (sh p)) (values_of (iei_of (sh p)) (map plain_item items))))).
  { intros items Hbi Hri p Hin. rewrite Forall_forall in Hp, Hs. specialize (Hp p Hin (Hs p Hin)).
    assert (Htp : all_tables table_ok [ptab p]).
    { split.
      - split; [intros i j a b Hij Ha Hb'; destruct i; destruct j as [|[|]]; cbn in *; try discriminate; lia|]. destruct Ht as (_ & Hm & _). split.
        + constructor; [|constructor]. unfold maxes_pos in Hm. rewrite Forall_forall in Hm. apply Hm. apply in_map. exact Hin.
        + unfold small_table. vm_compute. discriminate.
      - constructor; [|constructor]. rewrite Forall_forall in Htn. apply Htn. apply in_map. exact Hin. }
    specialize (Hp Htp). pose proof (all_std_head _ (Hs p Hin)) as Hh.
    rewrite (values_items p items Hh Hri). unfold member_of. rewrite head_ptab, sh_occ.
    assert (Hbv : Forall (fun it => bytes_ok (snd it)) (items_for (ptab p) items)).
    { apply bytes_items in Hbi; [|exact (fun _ => True)]. unfold items_for. rewrite Forall_forall in *. intros x Hx. apply filter_In in Hx. apply Hbi, Hx. }
    split.
    - intros (s & Hc & H2). assert (Hlen := H2); apply Forall2_length in Hlen. split.
      + rewrite <- occ_head_ok by exact Hh. unfold lenN. rewrite map_length, Hlen. exact Hc.
      + apply Forall_map. assert (Hex : exists s, Forall2 (fun it v => dec_coding (ptab p) t16l16v false (snd it ++ rest) (lenN (snd it)) = Ok v) (items_for (ptab p) items) s) by (exists s; exact H2).
        apply Forall2_exists in Hex. rewrite Forall_forall in *. intros x Hx. apply (Hp (snd x) rest (Hbv x Hx) Hr). apply Hex, Hx.
    - intros [Hc Hf]. rewrite Forall_map in Hf.
      assert (Hex : exists s, Forall2 (fun it v => dec_coding (ptab p) t16l16v false (snd it ++ rest) (lenN (snd it)) = Ok v) (items_for (ptab p) items) s).
      { apply Forall2_exists. rewrite Forall_forall in *. intros x Hx. apply (Hp (snd x) rest (Hbv x Hx) Hr). apply Hf, Hx. }
      destruct Hex as [s H2]. exists s. split; [|exact H2]. apply occ_head_ok; [exact Hh|]. assert (Hlen := H2); apply Forall2_length in Hlen.
      unfold lenN in *. rewrite map_length, Hlen in Hc. exact Hc. }
  split.
  - intros [slots H]. apply Hdec in H. destruct H as (items & Hpa & Hf).
    apply (parse_iff t16l16v rep_t16l16v hdr_t16l16v d items t16l16v_ok t16l16v_rt t16l16v_inv Hb) in Hpa. destruct Hpa as [Hri Ed].
    exists (map plain_item items). split; [rewrite Ed; apply ser_plain, Hri|]. apply Forall_map.
    assert (Hex : Forall (fun x => exists s, member_of t16l16v rest items x s) (map ptab ies)).
    { apply Forall2_exists. exists slots. exact Hf. }
    rewrite Forall_map in Hex. rewrite Forall_forall in *. intros p Hin. cbv zeta. apply (Hmem items); [rewrite <- Ed; exact Hb|exact Hri|exact Hin|].
    apply Hex, Hin.
  - intros (l & Hseq & Hf). destruct (plain_ser _ _ Hseq) as (items & Hri & Ed & ->).
    assert (Hex : exists slots, Forall2 (member_of t16l16v rest items) (map ptab ies) slots).
    { apply Forall2_exists. apply Forall_map. rewrite Forall_map in Hf. rewrite Forall_forall in *. intros p Hin.
      apply (Hmem items); [rewrite <- Ed; exact Hb|exact Hri|exact Hin|]. apply (Hf p Hin). }
    destruct Hex as [slots H2]. exists slots. apply Hdec. exists items. split; [|exact H2].
    apply (parse_iff t16l16v rep_t16l16v hdr_t16l16v d items t16l16v_ok t16l16v_rt t16l16v_inv Hb). split; assumption.
Qed.

Lemma body_content h l v : content_ok (sh (PNest h l)) v <-> body_ok (map sh l) v.
Proof.
  cbn [sh content_ok]. unfold body_ok. split; intros (items & H1 & H2); exists items; (split; [exact H1|]); apply fold_right_and_Forall; exact H2.
Qed.

Lemma dec_iff_all p : dec_iff p.
Proof.
  induction p as [h k|h l IH] using pcoding_ind'; intros Hs Ht v rest Hb Hr.
  - cbn [ptab sh content_ok dec_coding leaf_of lf_dec]. rewrite <- (ie_accept_iff k v rest) by (intros _; exact Hr). split.
    + intros [x H]. destruct (dec_of k (v ++ rest) (lenN v)) as [y|e|u]; try discriminate. eauto.
    + intros [x ->]. cbn [bind]. eauto.
  - rewrite body_content. destruct Hs as [_ Hs]. apply fold_right_and_Forall in Hs.
    destruct Ht as [_ Ht]. inversion Ht as [|? ? Ht1 _]; subst. cbn [ptab] in Ht1.
    assert (Hal : all_tables table_ok (map ptab l)).
    { cbn in Ht1. destruct Ht1 as [A B]. split; [exact A|]. apply fold_right_and_Forall in B. exact B. }
    rewrite <- (body_iff l v rest IH Hs Hal Hb Hr). cbn [ptab dec_coding gtlvs_decode].
    change (map (fun d => mkEntry (head d) (dec_coding d)) (map ptab l)) with (map entry_of (map ptab l)).
    split; intros [x H].
    + destruct (decode_entries t16l16v false (map entry_of (map ptab l)) (v ++ rest) (lenN v)) as [s|e|u]; try discriminate. eauto.
    + rewrite H. cbn [bind]. eauto.
Qed.

Lemma spec_tables t : forall l, In (t, l) s_messages <-> exists ies, get_msg_coding t = Some ies /\ l = map sh ies /\ Forall all_std ies.
Proof.
  intros l. unfold get_msg_coding, s_messages.
  split.
  - intros H. repeat (destruct H as [H|H]; [injection H as <- <-; eexists; split; [reflexivity|]; split; [reflexivity|repeat constructor]|]). contradiction.
  - intros (ies & H & -> & _).
    repeat (match type of H with context [if ?b then _ else _] =>
      destruct b eqn:E; [injection H as <-; apply N.eqb_eq in E; subst t; clear; cbn [In]; repeat (first [left; reflexivity | right])|clear E] end).
    discriminate.
Qed.

Theorem message_accept t l d rest : In (t, l) s_messages -> bytes_ok d -> In 0 rest ->
  ((exists ies, decode_tlv t (d ++ rest) (lenN d) = Ok ies) <-> body_ok l d).
Proof.
  intros Hl Hb Hr. apply spec_tables in Hl. destruct Hl as (ies & Ht & -> & Hs). unfold decode_tlv, msg_table. rewrite Ht. cbn [option_map].
  apply body_iff; [apply Forall_forall; intros p _; apply dec_iff_all|exact Hs|apply (tables_are_good _ _ Ht)|exact Hb|exact Hr].
Qed.

Theorem message_unknown t : (forall l, ~ In (t, l) s_messages) ->
  (forall m len, decode_tlv t m len = Err ENOTSUP) /\ (forall cap buf ies, encode_tlv cap buf t ies = EErr buf ENOTSUP).
Proof.
  intros H. assert (E : get_msg_coding t = None).
  { destruct (get_msg_coding t) as [ies|] eqn:E; [|reflexivity]. exfalso. apply (H (map sh ies)). apply spec_tables. exists ies.
    split; [exact E|]. split; [reflexivity|]. revert E. unfold get_msg_coding.
    intros E. repeat (match type of E with context [if ?b then _ else _] => destruct b; [injection E as <-; repeat constructor|] end). discriminate. }
  unfold decode_tlv, encode_tlv, msg_table. rewrite E. split; reflexivity.
Qed.
