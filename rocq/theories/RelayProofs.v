(* RelayProofs.v -- received messages are valid (but for names) and do not grow much when encoded again *)
From Verif Require Import Base BaseProofs GtlvModel GtlvSpec GtlvProofs DecEncModel DecEncSpec DecEncProofs DecCharProofs GtlvInst IesModel IesSpec IesProofs HelperProofs TablesModel CStr MsgModel MsgSpec MsgProofs MsgEncProofs RxProofs SizeProofs MsgFinalProofs AcceptSpec AcceptProofs RelaySpec.

(* ---------------------------------------------------------------- IEs *)
Lemma names_leaf h k x : names_ok (PLeaf h k) (VLeaf x) ->
  (k = KNodeId -> forall s, x = IvNode (NodeFqdn s) -> valid_name s) /\ (k = KNetInst -> forall s, x = IvStr s -> valid_name s).
Proof. intros H. split; intros -> s ->; exact H. Qed.
Lemma leaf_valid h k v rest x : bytes_ok v -> In 0 rest -> dec_of k (v ++ rest) (lenN v) = Ok x -> names_ok (PLeaf h k) (VLeaf x) -> valid_ie k x.
Proof.
  intros Hb Hr H Hn. apply names_leaf in Hn. destruct Hn as [N1 N2].
  destruct (decoded_in_range k v rest x Hb (fun _ => Hr) H) as [A|[(-> & s & -> & _)|(-> & s & -> & _)]];
    [exact A|exact (N1 eq_refl s eq_refl)|exact (N2 eq_refl s eq_refl)].
Qed.
Lemma take_len m len ofs n b : take m len ofs n = Ok b -> n <= len - ofs.
Proof. unfold take. dif E; [discriminate|]. intros _. lia. Qed.
Lemma dec_addrs_len m len ofs v4 v6 x o : dec_addrs m len ofs v4 v6 = Ok (x, o) -> ofs <= len ->
  o <= len /\ ia_v4p x = v4 /\ ia_v6p x = v6 /\ o = ofs + (if v4 then 4 else 0) + (if v6 then 16 else 0).
Proof.
  unfold dec_addrs. intros H Ho. destruct v4; destruct v6; cbn [bind] in H.
  - destruct (take m len ofs 4) as [a| |] eqn:E1; try discriminate. cbn [bind] in H. apply take_len in E1.
    destruct (take m len (ofs + 4) 16) as [b| |] eqn:E2; try discriminate. cbn [bind] in H. apply take_len in E2.
    injection H as <- <-. cbn. repeat split; lia.
  - destruct (take m len ofs 4) as [a| |] eqn:E1; try discriminate. cbn [bind] in H. apply take_len in E1.
    injection H as <- <-. cbn. repeat split; lia.
  - destruct (take m len ofs 16) as [b| |] eqn:E2; try discriminate. cbn [bind] in H. apply take_len in E2.
    injection H as <- <-. cbn. repeat split; lia.
  - injection H as <- <-. cbn. repeat split; lia.
Qed.
Lemma dec_opt_len m len ofs n p x o : dec_opt m len ofs n p = Ok (x, o) -> ofs <= len -> o <= len /\ o = ofs + (if p then n else 0).
Proof.
  unfold dec_opt. destruct p.
  - destruct (take m len ofs n) as [b| |] eqn:E; try discriminate. cbn [bind]. apply take_len in E. intros H. injection H as <- <-. destruct (N.eq_0_gt_0_cases n); lia.
  - intros H. injection H as <- <-. lia.
Qed.
Lemma wire_addrs_len x : valid_addrs x -> lenN (wire_addrs x) = (if ia_v4p x then 4 else 0) + (if ia_v6p x then 16 else 0).
Proof.
  intros [H4 H6]. unfold wire_addrs. rewrite lenN_app.
  destruct (ia_v4p x); [destruct H4 as (a & -> & L & _)|rewrite H4]; (destruct (ia_v6p x); [destruct H6 as (b & -> & L' & _)|rewrite H6]);
    cbn [sa_addr]; unfold lenN; rewrite ?L, ?L'; reflexivity.
Qed.
Lemma opt_wire_eq p w n : lenN (opt_wire p w n) = if p then N.of_nat w else 0.
Proof. unfold opt_wire. destruct p; [apply be_put_lenN|reflexivity]. Qed.
Lemma cstr_len s : lenN (cstr s) <= lenN s.
Proof. induction s as [|b s IH]; [cbn; lia|]. cbn [cstr]. destruct (b =? 0); rewrite ?lenN_cons; [rewrite lenN_nil; lia|lia]. Qed.

(* what is encoded for a decoded value is at most one octet longer than the value received, and only for Apply Action *)
Lemma leaf_len k v rest x bs : bytes_ok v -> In 0 rest -> k <> KUpFF -> dec_of k (v ++ rest) (lenN v) = Ok x -> valid_ie k x -> wire_ie k x bs ->
  lenN bs <= lenN v + (match k with KApplyAction => 1 | _ => 0 end).
Proof.
  intros Hb Hr Hk H Hv Hw.
  destruct k; try congruence; cbn [dec_of] in H;
    unfold dec_cause, dec_offending_ie, dec_8, dec_16be, dec_32be, dec_3gpp_iface_type, dec_iface, dec_cp_ff,
    dec_f_seid, dec_f_teid, dec_apply_action, dec_bits_padded, dec_ohr, dec_ue_ip, dec_ohc in H.
  - repeat inv_bind H. injection H as <-. cbn [wire_ie] in Hw. subst bs. change (lenN [x0]) with 1. lia.
  - repeat inv_bind H. injection H as <-. cbn [wire_ie] in Hw. subst bs. rewrite be_put_lenN. lia.
  - repeat inv_bind H. injection H as <-. cbn [wire_ie] in Hw. subst bs. change (lenN [x0]) with 1. lia.
  - repeat inv_bind H. injection H as <-. cbn [wire_ie] in Hw. subst bs. rewrite be_put_lenN. lia.
  - repeat inv_bind H. injection H as <-. cbn [wire_ie] in Hw. subst bs. rewrite be_put_lenN. lia.
  - repeat inv_bind H. injection H as <-. cbn [wire_ie] in Hw. subst bs. rewrite lenN_cons, lenN_nil. lia.
  - repeat inv_bind H. injection H as <-. cbn [wire_ie] in Hw. subst bs. rewrite lenN_cons, lenN_nil. lia.
  - repeat inv_bind H. injection H as <-. cbn [wire_ie] in Hw. subst bs. rewrite lenN_cons, lenN_nil. lia.
  - (* Node ID *) assert (H' := H). unfold dec_node_id in H. inv_bind H. inv_bind H. dif_in H E1; [|dif_in H E2; [|dif_in H E3; [|discriminate]]].
    + repeat inv_bind H. injection H as <-. cbn [valid_ie] in Hv. destruct Hv as (a & Ha & La & _). cbn [wire_ie] in Hw. subst bs. rewrite Ha. cbn [sa_addr].
      rewrite lenN_cons. unfold lenN at 1. rewrite La. lia.
    + repeat inv_bind H. injection H as <-. cbn [valid_ie] in Hv. destruct Hv as (a & Ha & La & _). cbn [wire_ie] in Hw. subst bs. rewrite Ha. cbn [sa_addr].
      rewrite lenN_cons. unfold lenN at 1. rewrite La. lia.
    + inv_bind H. inv_bind H. destruct x1 as [s|]; [|discriminate]. injection H as <-. destruct v as [|b v]; [rewrite lenN_nil in E; discriminate|].
      assert (b = 2).
      { rewrite (rd_be_le 1 (b :: v) rest) in E0 by (rewrite lenN_cons; lia). change (takeN 1 (b :: v)) with [b] in E0. injection E0 as E0. apply N.eqb_eq in E3.
        subst x0. unfold be_get in E3. cbn [be_get_acc] in E3. lia. }
      subst b.
      rewrite lenN_cons in H'. replace (lenN v + 1) with (1 + lenN v) in H' by lia. destruct (fqdn_valid v rest s) as (labels & tail & -> & Es & _); [exact H'|].
      cbn [wire_ie] in Hw. destruct Hw as (l' & (Hn & _) & Ej & ->). rewrite !lenN_cons, (lenN_wire_labels l' Hn), <- Ej, Es.
      pose proof (cstr_len (join labels)). destruct labels as [|l0 ls].
      * change (cstr (join [])) with (@nil N). rewrite lenN_nil. rewrite !lenN_cons in E4. cbn [wire_labels map concat app] in *. lia.
      * rewrite lenN_app, lenN_wire_labels by discriminate. lia.
  - (* CP function features *) repeat inv_bind H. injection H as <-. destruct Hv as [L _]. cbn [wire_ie] in Hw. subst bs. unfold lenN at 1. rewrite L. lia.
  - (* F-SEID *) repeat inv_bind H. injection H as <-. destruct x2 as [a o]. apply dec_addrs_len in E2; [|lia]. destruct E2 as (Hl & H4 & H6 & Ho).
    destruct Hv as [_ Ha]. cbn [wire_ie fs_addr fs_seid fst] in *. subst bs. rewrite lenN_cons, lenN_app, be_put_lenN, (wire_addrs_len _ Ha), H4, H6. lia.
  - (* F-TEID *) inv_bind H. dif_in H E1.
    + repeat inv_bind H. injection H as <-. destruct x2 as [a o]. apply take_len in E0. apply dec_addrs_len in E2; [|lia]. destruct E2 as (Hl & H4 & H6 & Ho).
      destruct Hv as [_ Ha]. cbn [wire_ie fst] in *. subst bs. rewrite lenN_cons, lenN_app, be_put_lenN, (wire_addrs_len _ Ha), H4, H6. lia.
    + apply take_len in E. dif_in H E2.
      * inv_bind H. injection H as <-. apply take_len in E0. cbn [wire_ie] in Hw. subst bs. rewrite lenN_cons, opt_wire_eq. lia.
      * injection H as <-. cbn [wire_ie] in Hw. subst bs. rewrite lenN_cons, opt_wire_eq. lia.
  - (* Apply Action *) repeat inv_bind H. injection H as <-. destruct Hv as [L _]. cbn [wire_ie] in Hw. subst bs. unfold lenN at 1. rewrite L. lia.
  - (* Network Instance *) assert (H' := H). assert (Hs : exists s, x = IvStr s) by (destruct x; try contradiction; eauto). destruct Hs as [s ->].
    destruct (net_inst_valid v rest s H') as (labels & tail & -> & Es & _). unfold dec_network_inst in H. inv_bind H.
    cbn [wire_ie] in Hw. destruct Hw as (l' & (Hn & _) & Ej & ->). rewrite (lenN_wire_labels l' Hn), <- Ej, Es.
    pose proof (cstr_len (join labels)). apply orb_false_elim in E. destruct labels as [|l0 ls].
    + change (cstr (join [])) with (@nil N). rewrite lenN_nil. cbn [wire_labels map concat app] in *. lia.
    + rewrite lenN_app, lenN_wire_labels by discriminate. lia.
  - (* Outer Header Creation *) repeat inv_bind H. destruct x1 as [[[[[t v4] v6] po] ct] st]. repeat inv_bind H. injection H as <-.
    destruct x1 as [t1 o1], x2 as [a o2], x3 as [p1 o3], x4 as [c1 o4], x5 as [s1 o5]. cbn [fst snd] in *.
    apply dec_opt_len in E2; [|lia]. apply dec_addrs_len in E3; [|lia]. destruct E3 as (Hl & H4 & H6 & Ho).
    apply dec_opt_len in E4; [|lia]. apply dec_opt_len in E5; [|lia]. apply dec_opt_len in E6; [|lia]. destruct Hv as (d0 & d1 & Hd & _ & _ & _ & _ & _ & _ & _ & _ & Ha & _). cbn [wire_ie oh_desc oh_teidp oh_teid oh_addr oh_portp oh_port oh_ctagp oh_ctag oh_stagp oh_stag] in *.
    subst bs. rewrite !lenN_app, !opt_wire_eq, (wire_addrs_len _ Ha), H4, H6, Hd. change (lenN [d0; d1]) with 2. change (N.of_nat 4) with 4. change (N.of_nat 3) with 3. change (N.of_nat 2) with 2. lia.
  - (* Activate Predefined Rules *) unfold dec_act_predef in H. inv_bind H. injection H as <-. cbn [wire_ie] in Hw. subst bs.
    unfold osmo_strlcpy in E. destruct (c_strlen (v ++ rest)) as [n| |]; try discriminate. injection E as <-. unfold lenN at 1. unfold takeN. rewrite firstn_length. lia.
  - (* Outer Header Removal *) inv_bind H. inv_bind H. dif_in H E1.
    + inv_bind H. injection H as <-. destruct Hv as [_ (b & Eb & _)]. cbn [wire_ie or_desc or_extp or_ext] in *. subst bs x1. change (lenN [x0; b]) with 2. lia.
    + injection H as <-. cbn [wire_ie or_desc or_extp or_ext] in *. subst bs. change (lenN [x0]) with 1. lia.
  - (* UE IP address *) inv_bind H. apply take_len in E. repeat inv_bind H. injection H as <-. destruct x1 as [a o1], x2 as [d1 o2], x3 as [p1 o3]. cbn [fst snd] in *.
    apply dec_addrs_len in E0; [|lia]. destruct E0 as (Hl & H4 & H6 & Ho). apply dec_opt_len in E1; [|lia]. apply dec_opt_len in E2; [|lia].
    destruct Hv as [Ha _]. cbn [wire_ie ue_addr ue_delegp ue_deleg ue_plenp ue_plen] in *. subst bs.
    rewrite lenN_cons, !lenN_app, !opt_wire_eq, (wire_addrs_len _ Ha), H4, H6. change (N.of_nat 1) with 1. lia.
Qed.

(* ---------------------------------------------------------------- structs *)
Fixpoint no_upff (p : pcoding) : Prop :=
  match p with PLeaf _ k => k <> KUpFF | PNest _ l => fold_right (fun d acc => no_upff d /\ acc) True l end.
Definition val_good (p : pcoding) : Prop := all_tables table_ok [ptab p] -> forall v rest x, bytes_ok v -> In 0 rest ->
  dec_coding (ptab p) t16l16v false (v ++ rest) (lenN v) = Ok x -> names_ok p x ->
  valid_val p x /\ (no_upff p -> forall bs, wire_val p x bs -> lenN bs <= lenN v + actions p x).

Definition wsum (items : list item) : N := fold_right (fun it a => 4 + lenN (snd it) + a) 0 items.
Lemma wsum_ser items : lenN (ser hdr_t16l16v items) = wsum items.
Proof.
  induction items as [|it items IH]; [reflexivity|]. change (ser hdr_t16l16v (it :: items)) with (ser1 hdr_t16l16v it ++ ser hdr_t16l16v items).
  rewrite lenN_app, IH. cbn [wsum fold_right]. fold (wsum items). unfold ser1. rewrite lenN_app. change (lenN (hdr_t16l16v (fst it) (lenN (snd it)))) with 4. lia.
Qed.
(* the items of different members are different items *)
Lemma one_for (it : item) : forall ies : list (coding iev), distinct_tags ies ->
  fold_right (fun d a => (if ti_match (h_ti (head d)) (fst it) then 4 + lenN (snd it) else 0) + a) 0 ies <= 4 + lenN (snd it).
Proof.
  induction ies as [|d ies IH]; intros Hd; cbn [fold_right]; [lia|].
  assert (Hd' : distinct_tags ies) by (intros i j a b Hij Ha Hb; exact (Hd (S i) (S j) a b (proj1 (Nat.succ_lt_mono i j) Hij) Ha Hb)).
  destruct (ti_match (h_ti (head d)) (fst it)) eqn:E; [|specialize (IH Hd'); lia].
  assert (Z : fold_right (fun d a => (if ti_match (h_ti (head d)) (fst it) then 4 + lenN (snd it) else 0) + a) 0 ies = 0); [|rewrite Z; lia].
  assert (Hz : Forall (fun b => ti_match (h_ti (head b)) (fst it) = false) ies).
  { apply Forall_forall. intros b Hb. apply In_nth_error in Hb. destruct Hb as [j Hj]. specialize (Hd 0%nat (S j) d b (Nat.lt_0_succ j) eq_refl Hj).
    destruct (ti_match (h_ti (head b)) (fst it)) eqn:E'; [|reflexivity]. rewrite ti_match_sym in E'. rewrite (ti_match_trans _ _ _ E E') in Hd. discriminate. }
  clear -Hz. induction Hz as [|b l Hb _ IH]; [reflexivity|]. cbn [fold_right]. rewrite Hb, IH. reflexivity.
Qed.
Lemma sum_zero {A} (f : A -> N) l : (forall x, f x = 0) -> fold_right (fun d a => f d + a) 0 l = 0.
Proof. intros H. induction l as [|x l IH]; [reflexivity|]. cbn [fold_right]. rewrite H, IH. reflexivity. Qed.
Lemma sum_add {A} (f g : A -> N) l : fold_right (fun d a => (f d + g d) + a) 0 l = fold_right (fun d a => f d + a) 0 l + fold_right (fun d a => g d + a) 0 l.
Proof. induction l as [|x l IH]; [reflexivity|]. cbn [fold_right]. rewrite IH. lia. Qed.
Lemma wsum_filter d it items : wsum (items_for (V := iev) d (it :: items)) = (if ti_match (h_ti (head d)) (fst it) then 4 + lenN (snd it) else 0) + wsum (items_for d items).
Proof. unfold items_for. cbn [filter]. destruct (ti_match (h_ti (head d)) (fst it)); cbn [wsum fold_right]; unfold wsum; lia. Qed.
Lemma items_split ies items : distinct_tags ies -> fold_right (fun d a => wsum (items_for (V := iev) d items) + a) 0 ies <= wsum items.
Proof.
  intros Hd. induction items as [|it items IH].
  - rewrite sum_zero; [cbn; lia|reflexivity].
  - assert (E : fold_right (fun d a => wsum (items_for (V := iev) d (it :: items)) + a) 0 ies
      = fold_right (fun d a => ((if ti_match (h_ti (head d)) (fst it) then 4 + lenN (snd it) else 0) + wsum (items_for d items)) + a) 0 ies).
    { clear Hd IH. induction ies as [|d ies IH]; [reflexivity|]. cbn [fold_right]. rewrite IH, wsum_filter. reflexivity. }
    rewrite E, sum_add. pose proof (one_for it ies Hd). cbn [wsum fold_right]. fold (wsum items). lia.
Qed.

Lemma slot_good p : val_good p -> all_tables table_ok [ptab p] -> forall rest items s, In 0 rest -> Forall (fun it => bytes_ok (snd it)) items ->
  member_of t16l16v rest items (ptab p) s -> Forall (names_ok p) s ->
  (count_ok (phead p) (lenN s) /\ Forall (valid_val p) s)
  /\ (no_upff p -> forall vbs, Forall2 (wire_val p) s vbs -> lenN (concat (map (wire_tlv (ti_tag (h_ti (phead p)))) vbs)) <= wsum (items_for (ptab p) items) + fold_right (fun v n => actions p v + n) 0 s).
Proof.
  intros Hp Ht rest items s Hr Hb [Hc H2] Hn. rewrite head_ptab in Hc.
  assert (Hb' : Forall (fun it => bytes_ok (snd it)) (items_for (ptab p) items)).
  { unfold items_for. rewrite Forall_forall in *. intros x Hx. apply filter_In in Hx. apply Hb, Hx. }
  assert (X : Forall (valid_val p) s /\ (no_upff p -> forall vbs, Forall2 (wire_val p) s vbs -> lenN (concat (map (wire_tlv (ti_tag (h_ti (phead p)))) vbs)) <= wsum (items_for (ptab p) items) + fold_right (fun v n => actions p v + n) 0 s)).
  { clear Hc. revert Hb' Hn. induction H2 as [|it v its s' Hv H2 IH]; intros Hb' Hn.
    - split; [constructor|]. intros _ vbs H. inversion H; subst. cbn [map concat fold_right]. rewrite (lenN_nil (A := N)). lia.
    - inversion Hb'; subst. inversion Hn; subst. destruct IH as [I1 I2]; try assumption. destruct (Hp Ht (snd it) rest v) as [V1 V2]; try assumption.
      split; [constructor; assumption|]. intros Hu vbs H. inversion H; subst. cbn [map concat]. rewrite lenN_app, wire_tlv_len. cbn [wsum fold_right]. fold (wsum its).
      specialize (I2 Hu _ ltac:(eassumption)). specialize (V2 Hu _ ltac:(eassumption)). lia. }
  destruct X as [X1 X2]. split; [split; assumption|exact X2].
Qed.

Lemma names_nest h ies slots : names_ok (PNest h ies) (VStruct slots) -> all_names_ok ies slots.
Proof.
  revert slots. induction ies as [|d ies IH]; intros slots H i p s Hp Hs; [destruct i; discriminate|].
  destruct slots as [|s0 slots]; [destruct i; discriminate|]. destruct H as [H1 H2].
  destruct i as [|i]; [cbn in Hp, Hs; injection Hp as <-; injection Hs as <-; exact H1|]. exact (IH slots H2 i p s Hp Hs).
Qed.
Lemma actions_nest h ies slots : actions (PNest h ies) (VStruct slots) = all_actions ies slots.
Proof. reflexivity. Qed.
Lemma all_names_tl p ies s slots : all_names_ok (p :: ies) (s :: slots) -> Forall (names_ok p) s /\ all_names_ok ies slots.
Proof. intros H. split; [exact (H 0%nat p s eq_refl eq_refl)|]. intros i q t Hq Ht. exact (H (S i) q t Hq Ht). Qed.

Lemma members_good ies : Forall val_good ies -> Forall (fun p => all_tables table_ok [ptab p]) ies -> forall rest items slots, In 0 rest ->
  Forall (fun it => bytes_ok (snd it)) items -> Forall2 (member_of t16l16v rest items) (map ptab ies) slots -> all_names_ok ies slots ->
  valid_struct ies slots
  /\ (Forall no_upff ies -> forall bs, wire_struct ies slots bs -> lenN bs <= fold_right (fun d a => wsum (items_for (V := iev) d items) + a) 0 (map ptab ies) + all_actions ies slots).
Proof.
  induction ies as [|p ies IH]; intros Hg Ht rest items slots Hr Hb H2 Hn; inversion H2; subst.
  - split; [constructor|]. intros _ bs ->. rewrite (lenN_nil (A := N)). lia.
  - inversion Hg; subst. inversion Ht; subst. apply all_names_tl in Hn. destruct Hn as [N1 N2].
    match goal with H : member_of _ _ _ _ ?s |- _ => destruct (slot_good p ltac:(assumption) ltac:(assumption) rest items s Hr Hb H N1) as [A1 A2] end.
    match goal with H : Forall2 _ (map ptab ies) ?l |- _ => destruct (IH ltac:(assumption) ltac:(assumption) rest items l Hr Hb H N2) as [B1 B2] end.
    split; [constructor; assumption|]. intros Hu bs (vbs & b2 & W1 & -> & W2). inversion Hu; subst.
    specialize (A2 ltac:(assumption) vbs W1). specialize (B2 ltac:(assumption) b2 W2). rewrite lenN_app. cbn [map fold_right all_actions]. lia.
Qed.
Lemma single_tables ies : all_tables table_ok (map ptab ies) -> Forall (fun p => all_tables table_ok [ptab p]) ies.
Proof.
  intros [Ht Htn]. apply Forall_forall. intros p Hin. split.
  - split; [intros i j a b Hij Ha Hb'; destruct i; destruct j as [|[|]]; cbn in *; try discriminate; lia|]. destruct Ht as (_ & Hm & _). split.
    + constructor; [|constructor]. unfold maxes_pos in Hm. rewrite Forall_forall in Hm. apply Hm. apply in_map. exact Hin.
    + unfold small_table. vm_compute. discriminate.
  - constructor; [|constructor]. rewrite Forall_forall in Htn. apply Htn. apply in_map. exact Hin.
Qed.
Lemma struct_good ies : Forall val_good ies -> all_tables table_ok (map ptab ies) -> forall d rest slots, bytes_ok d -> In 0 rest ->
  gtlvs_decode t16l16v false (Some (map ptab ies)) (d ++ rest) (lenN d) = Ok slots -> all_names_ok ies slots ->
  valid_struct ies slots /\ (Forall no_upff ies -> forall bs, wire_struct ies slots bs -> lenN bs <= lenN d + all_actions ies slots).
Proof.
  intros Hg Ht d rest slots Hb Hr H Hn.
  apply (decode_unordered_iff NulTail) in H; [|exact t16_cfg_ok|exact NulTail_closed|exact Hr|apply tabs_local|apply tabs_cfgs| | | ]; try apply Ht.
  destruct H as (items & Hpa & Hf). apply (parse_iff t16l16v rep_t16l16v hdr_t16l16v d items t16l16v_ok t16l16v_rt t16l16v_inv Hb) in Hpa. destruct Hpa as [Hri Ed].
  assert (Hbi : Forall (fun it => bytes_ok (snd it)) items) by (apply (bytes_items (fun _ => True)); rewrite <- Ed; exact Hb).
  destruct (members_good ies Hg (single_tables ies Ht) rest items slots Hr Hbi Hf Hn) as [A B]. split; [exact A|].
  intros Hu bs Hw. specialize (B Hu bs Hw). pose proof (items_split (map ptab ies) items (proj1 (proj1 Ht))) as X. rewrite Ed, wsum_ser. lia.
Qed.
Lemma val_good_all p : val_good p.
Proof.
  induction p as [h k|h l IH] using pcoding_ind'; intros Ht v rest x Hb Hr H Hn.
  - cbn [ptab dec_coding leaf_of lf_dec] in H. destruct (dec_of k (v ++ rest) (lenN v)) as [y|e|u] eqn:E; try discriminate. cbn [bind] in H. injection H as <-.
    assert (V := leaf_valid h k v rest y Hb Hr E Hn). split; [exact V|]. intros Hu bs Hw. pose proof (leaf_len k v rest y bs Hb Hr Hu E V Hw).
    destruct k; cbn [actions]; lia.
  - destruct Ht as [_ Ht]. inversion Ht as [|? ? Ht1 _]; subst. cbn [ptab] in Ht1.
    assert (Hal : all_tables table_ok (map ptab l)).
    { cbn in Ht1. destruct Ht1 as [A B]. split; [exact A|]. apply fold_right_and_Forall in B. exact B. }
    cbn [ptab dec_coding] in H. change (map (fun d => mkEntry (head d) (dec_coding d)) (map ptab l)) with (map entry_of (map ptab l)) in H.
    destruct (decode_entries t16l16v false (map entry_of (map ptab l)) (v ++ rest) (lenN v)) as [s|e|u] eqn:E; try discriminate. cbn [bind] in H. injection H as <-.
    apply names_nest in Hn. destruct (struct_good l IH Hal v rest s Hb Hr E Hn) as [A B]. split; [apply valid_val_nest; exact A|].
    intros Hu bs Hw. apply wire_val_nest in Hw. assert (Hu' : Forall no_upff l) by (apply fold_right_and_Forall; exact Hu). specialize (B Hu' bs Hw). rewrite actions_nest. exact B.
Qed.

(* ---------------------------------------------------------------- messages *)
Lemma hdr_of_valid d n x : bytes_ok d -> 16 <= lenN d \/ dh_ofs x <= lenN d -> hdr_of d n = Ok x -> valid_hdr (dh_h x).
Proof.
  intros Hb _ H. assert (HB : forall i, nth i d 0 < 256).
  { intros i. destruct (Nat.lt_ge_cases i (length d)) as [L|L]; [|rewrite nth_overflow by exact L; lia]. unfold bytes_ok in Hb. rewrite Forall_forall in Hb. apply Hb, nth_In, L. }
  assert (HG : forall n k, be_get (takeN n (dropN k d)) < 256 ^ n).
  { intros m k. eapply N.lt_le_trans; [apply be_get_bound, bytes_ok_takeN, bytes_ok_dropN, Hb|]. apply N.pow_le_mono_r; [lia|]. unfold lenN, takeN. rewrite firstn_length. lia. }
  assert (H0 := HB 0%nat). assert (H1 := HB 1%nat). unfold hdr_of in H. dif_in H E1; [discriminate|]. dif_in H E2; [discriminate|]. dif_in H E3; [discriminate|].
  assert (Hv : nth 0 d 0 / 32 < 8) by (apply N.div_lt_upper_bound; lia).
  dif_in H E4; [dif_in H E5; [discriminate|]|]; injection H as <-; cbn [dh_h]; unfold valid_hdr; cbn [hd_version hd_type hd_seq hd_seid hd_prio].
  - repeat split; [exact Hv|exact H1|exact (HG 3 4)].
  - split; [exact Hv|]. split; [exact H1|]. split; [exact (HG 3 12)|]. split; [exact (HG 8 4)|].
    match goal with |- context [flag ?a 2] => destruct (flag a 2) end; [apply N.mod_lt; discriminate|exact I].
Qed.
Lemma hdr_ofs_len d n x : hdr_of d n = Ok x -> dh_ofs x = hdr_len (dh_h x).
Proof.
  unfold hdr_of. intros H. dif_in H E1; [discriminate|]. dif_in H E2; [discriminate|]. dif_in H E3; [discriminate|].
  unfold hdr_size in *. destruct (flag (nth 0 d 0) 1); cbn [negb] in H.
  - injection H as <-. reflexivity.
  - dif_in H E4; [discriminate|]. injection H as <-. reflexivity.
Qed.
Lemma outcome_valid p h ies : framed p -> bytes_ok p -> outcome p = RxMsg h ies ->
  valid_hdr h /\ exists tab, get_msg_coding (hd_type h) = Some tab
    /\ (all_names_ok tab ies -> valid_struct tab ies /\ (Forall no_upff tab -> forall bs, wire_struct tab ies bs -> hdr_len h + lenN bs <= lenN p + all_actions tab ies)).
Proof.
  intros Hf Hb H. unfold outcome in H. destruct (decode_header p (lenN p)) as [d|e|u] eqn:E; try discriminate.
  assert (Hm : message p) by (apply message_framed; exact Hf). destruct Hm as (d' & E' & Hl & Ho). rewrite E in E'. injection E' as <-.
  destruct (decode_tlv (hd_type (dh_h d)) (dropN (dh_ofs d) p ++ [0]) (dh_len d - dh_ofs d)) as [s|e|u] eqn:Ed; try discriminate. injection H as <- <-.
  rewrite decode_header_nil in E. split; [apply (hdr_of_valid p (lenN p) d Hb); [right; lia|exact E]|].
  unfold decode_tlv, msg_table in Ed. destruct (get_msg_coding (hd_type (dh_h d))) as [tab|] eqn:Et; [|discriminate]. exists tab. split; [reflexivity|]. intros Hn.
  cbn [option_map] in Ed.
  assert (Hlen : dh_len d - dh_ofs d = lenN (dropN (dh_ofs d) p)) by (rewrite lenN_dropN; lia). rewrite Hlen in Ed.
  destruct (struct_good tab) with (d := dropN (dh_ofs d) p) (rest := [0]) (slots := s) as [A B]; try assumption.
  - apply Forall_forall. intros q _. apply val_good_all.
  - apply (tables_are_good _ _ Et).
  - apply bytes_ok_dropN, Hb.
  - left. reflexivity.
  - split; [exact A|]. intros Hu bs Hw. specialize (B Hu bs Hw). rewrite lenN_dropN in B. rewrite <- (hdr_ofs_len _ _ _ E). apply hdr_of_ok in E. destruct E as (_ & _ & E & _). lia.
Qed.
Lemma upff_tables t tab : get_msg_coding t = Some tab -> ~ fits_always t -> Forall no_upff tab.
Proof.
  unfold get_msg_coding, fits_always. intros H Hn.
  repeat (match type of H with context [if ?b then _ else _] => destruct b eqn:?; [injection H as <-;
    first [repeat constructor; discriminate | exfalso; apply Hn; unfold msgt_heartbeat_req, msgt_heartbeat_resp, msgt_assoc_setup_req, msgt_assoc_setup_resp in *; lia]|] end).
  discriminate.
Qed.
Lemma max_msg' t tab : get_msg_coding t = Some tab -> fits_always t -> max_struct tab <= 2031.
Proof.
  unfold get_msg_coding, fits_always. intros H (H1 & H2 & H3).
  repeat (match type of H with context [if ?b then _ else _] => destruct b eqn:?; [injection H as <-; try (vm_compute; discriminate);
    unfold msgt_session_est_req, msgt_session_mod_req, msgt_session_mod_resp in *; lia|] end).
  discriminate.
Qed.
(* how many Apply Actions there can be *)
Definition most (h : chead) : N := match h_multi h with Some (mx, _) => mx | None => 1 end.
Fixpoint max_actions (p : pcoding) : N :=
  match p with
  | PLeaf _ KApplyAction => 1
  | PLeaf _ _ => 0
  | PNest _ l => (fix go (l : list pcoding) : N := match l with [] => 0 | d :: l' => most (phead d) * max_actions d + go l' end) l
  end.
Fixpoint maxes (l : list pcoding) : N := match l with [] => 0 | d :: l' => most (phead d) * max_actions d + maxes l' end.
Lemma actions_le ies : Forall (fun p => forall v, valid_val p v -> actions p v <= max_actions p) ies -> forall slots, valid_struct ies slots -> all_actions ies slots <= maxes ies.
Proof.
  induction 1 as [|p ies Hp _ IH]; intros slots H; inversion H as [|? s ? slots' [Hc Hv] H2]; subst; [reflexivity|].
  cbn [all_actions maxes]. specialize (IH _ H2).
  assert (X : fold_right (fun v n => actions p v + n) 0 s <= lenN s * max_actions p).
  { clear Hc H IH H2. induction Hv as [|v s Hv _ IHs]; [apply N.le_0_l|]. cbn [fold_right]. rewrite lenN_cons, N.mul_add_distr_r, N.mul_1_l. specialize (Hp v Hv). lia. }
  assert (Y : lenN s <= most (phead p)) by (unfold count_ok, most in *; destruct (h_multi (phead p)) as [[mx mand]|]; [apply Hc|]; destruct (h_pres (phead p)); lia).
  pose proof (N.mul_le_mono_r _ _ (max_actions p) Y). lia.
Qed.
Lemma action_le p v : valid_val p v -> actions p v <= max_actions p.
Proof.
  revert v. induction p as [h k|h l IH] using pcoding_ind'; intros v Hv; [destruct k; cbn [actions max_actions]; lia|].
  destruct v as [x|slots]; [apply N.le_0_l|]. rewrite actions_nest. change (max_actions (PNest h l)) with (maxes l).
  apply actions_le; [exact IH|]. apply valid_val_nest in Hv. exact Hv.
Qed.
Lemma few_actions ies slots t : valid_struct ies slots -> get_msg_coding t = Some ies -> all_actions ies slots <= (if t =? 50 then 32 else if t =? 52 then 64 else 0).
Proof.
  intros Hv Ht. etransitivity; [apply actions_le; [|exact Hv]; apply Forall_forall; intros p _ v; apply action_le|]. clear Hv. revert Ht.
  unfold get_msg_coding.
  repeat (match goal with |- (if ?a =? ?b then Some _ else _) = _ -> _ => destruct (N.eqb_spec a b) as [->|_]; [intros H; injection H as <-; vm_compute; discriminate|] end).
  intros H; discriminate H.
Qed.
Lemma rx_one p : framed p -> bytes_ok p -> lenN p < alloc_size -> rx_datagram p = [outcome p].
Proof.
  intros Hf Hb Hl. pose proof (rx_datagram_messages [p]) as X. cbn [concat] in X. rewrite app_nil_r in X. apply X; [constructor; [exact Hf|constructor]| |exact Hl].
  constructor; [exact Hb|constructor].
Qed.
Lemma relay p h ies tab : framed p -> bytes_ok p -> lenN p < alloc_size -> rx_datagram p = [RxMsg h ies] -> get_msg_coding (hd_type h) = Some tab ->
  all_names_ok tab ies -> (hd_type h = 50 \/ hd_type h = 52 -> lenN p + all_actions tab ies < alloc_size) ->
  exists m, msg_encode (msgb_new alloc_size) h ies = MOk m /\ rx_datagram (mb_buf m) = [RxMsg h ies].
Proof.
  intros Hf Hb Hl Hr Ht Hn Hs. rewrite (rx_one p Hf Hb Hl) in Hr. injection Hr as Hr.
  destruct (outcome_valid p h ies Hf Hb Hr) as (Hh & tab' & Ht' & Hv). rewrite Ht in Ht'. injection Ht' as <-. destruct (Hv Hn) as [Hvs Hsz].
  destruct (wire_struct_exists tab ies Hvs) as (bs & Hw).
  assert (Hhl : hdr_len h = 8 \/ hdr_len h = 16) by (unfold hdr_len; destruct (hd_seid h); auto).
  assert (Hfit : hdr_len h + lenN bs < alloc_size).
  { assert (Hfa : fits_always (hd_type h) -> hdr_len h + lenN bs < alloc_size).
    { intros A. pose proof (struct_size _ _ _ Hvs Hw). pose proof (max_msg' _ _ Ht A). change alloc_size with 2048. lia. }
    assert (Hs' : ~ fits_always (hd_type h) -> lenN p + all_actions tab ies < alloc_size).
    { intros A. destruct (N.eq_dec (hd_type h) 53) as [E|E].
      - pose proof (few_actions _ _ _ Hvs Ht) as X. rewrite E in X. change (all_actions tab ies <= 0) in X. change alloc_size with 2048 in *. lia.
      - apply Hs. unfold fits_always in A. lia. }
    destruct (N.eq_dec (hd_type h) 50) as [E|E]; [|destruct (N.eq_dec (hd_type h) 52) as [E2|E2]; [|destruct (N.eq_dec (hd_type h) 53) as [E3|E3]]].
    4: exact (Hfa (conj E (conj E2 E3))).
    all: assert (A : ~ fits_always (hd_type h)) by (unfold fits_always; lia); specialize (Hs' A);
      specialize (Hsz (upff_tables _ _ Ht A) bs Hw); change alloc_size with 2048 in *; lia. }
  exists (mkMsgb (wire_hdr h false (lenN bs) ++ bs) alloc_size (Some 0) (Some 0)).
  assert (Hvm : valid_msg h ies bs) by (split; [exact Hh|]; exists tab; repeat split; try assumption; change alloc_size with 2048 in Hfit; lia).
  split.
  - apply (msg_encode_wire (msgb_new alloc_size) h ies bs Hvm). cbn [mb_buf mb_cap msgb_new]. rewrite lenN_nil. lia.
  - cbn [mb_buf]. pose proof (rx_datagram_bundle [(h, ies, bs)]) as Y. cbn [strip map fst snd wire_bundle msgs_of] in Y. rewrite app_nil_r in Y. apply Y.
    + constructor; [exact Hvm|constructor].
    + rewrite lenN_app, wire_hdr_len. exact Hfit.
Qed.
Lemma relay_size p h ies tab : framed p -> bytes_ok p -> lenN p < alloc_size -> rx_datagram p = [RxMsg h ies] -> get_msg_coding (hd_type h) = Some tab ->
  all_names_ok tab ies -> (hd_type h = 50 -> lenN p <= 2015) -> (hd_type h = 52 -> lenN p <= 1983) ->
  exists m, msg_encode (msgb_new alloc_size) h ies = MOk m /\ rx_datagram (mb_buf m) = [RxMsg h ies].
Proof.
  intros Hf Hb Hl Hr Ht Hn H1 H2. apply (relay p h ies tab); try assumption. intros Hs.
  assert (Hr' := Hr). rewrite (rx_one p Hf Hb Hl) in Hr'. injection Hr' as Hr'.
  destruct (outcome_valid p h ies Hf Hb Hr') as (_ & tab' & Ht' & Hv). rewrite Ht in Ht'. injection Ht' as <-. destruct (Hv Hn) as [Hvs _].
  pose proof (few_actions _ _ _ Hvs Ht) as X. change alloc_size with 2048. destruct Hs as [E|E]; rewrite E in X.
  - change (all_actions tab ies <= 32) in X. specialize (H1 E). lia.
  - change (all_actions tab ies <= 64) in X. specialize (H2 E). lia.
Qed.
Lemma received_valid p h ies : framed p -> bytes_ok p -> lenN p < alloc_size -> rx_datagram p = [RxMsg h ies] ->
  valid_hdr h /\ exists tab, get_msg_coding (hd_type h) = Some tab /\ (all_names_ok tab ies -> valid_struct tab ies).
Proof.
  intros Hf Hb Hl Hr. rewrite (rx_one p Hf Hb Hl) in Hr. injection Hr as Hr. destruct (outcome_valid p h ies Hf Hb Hr) as (Hh & tab & Ht & Hv).
  split; [exact Hh|]. exists tab. split; [exact Ht|]. intros Hn. exact (proj1 (Hv Hn)).
Qed.

(* ---------------------------------------------------------------- examples *)
Lemma bytes_okb l : forallb (fun b => b <? 256) l = true -> bytes_ok l.
Proof. intros H. rewrite forallb_forall in H. apply Forall_forall. intros x Hx. exact (proj1 (N.ltb_lt _ _) (H x Hx)). Qed.
(* no name at all *)
Fixpoint nameless (v : val iev) : bool :=
  match v with
  | VLeaf (IvNode (NodeFqdn _)) | VLeaf (IvStr _) => false
  | VLeaf _ => true
  | VStruct slots => forallb (fun s => forallb nameless s) slots
  end.
Lemma nameless_ok p : forall v, nameless v = true -> names_ok p v.
Proof.
  induction p as [h k|h ies IH] using pcoding_ind'; intros v H.
  - destruct v as [x|slots]; [|destruct k; exact I]. destruct k; try exact I; (destruct x as [n|nd| | | | | | |]; try exact I; try discriminate).
    destruct nd; try exact I. discriminate.
  - destruct v as [x|slots]; [exact I|]. cbn [nameless] in H. cbn [names_ok]. revert slots H. induction IH as [|d ies Hd _ IH2]; intros slots H; [exact I|].
    destruct slots as [|s slots]; [exact I|]. cbn [forallb] in H. apply andb_prop in H. destruct H as [H1 H2]. split; [|apply IH2; exact H2].
    rewrite forallb_forall in H1. apply Forall_forall. intros x Hx. apply Hd, H1, Hx.
Qed.
Lemma names_okb ies slots : forallb (fun s => forallb nameless s) slots = true -> all_names_ok ies slots.
Proof.
  intros H i p s _ Hs. rewrite forallb_forall in H. apply nth_error_In in Hs. specialize (H s Hs). rewrite forallb_forall in H.
  apply Forall_forall. intros x Hx. apply nameless_ok, H, Hx.
Qed.
