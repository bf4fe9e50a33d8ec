(* PutMeanProofs.v -- C92: a message that was encoded means what the application put into it *)
From Verif Require Import Base BaseProofs GtlvModel GtlvSpec GtlvProofs DecEncModel DecEncSpec DecEncProofs WfProofs
  IesModel IesSpec IesProofs HelperProofs TablesModel MsgModel MsgSpec MsgProofs MsgEncProofs MsgFinalProofs AcceptSpec AcceptProofs ErrnoSpec ReadSpec ReadProofs
  PutSpec PutProofs.

(* valid values are values of the type, none is refused, and their octets are octets *)
Lemma valid_addrs_typed a : valid_addrs a -> typed_addrs a /\ families_ok a = true /\ bytes_ok (addr_octets a).
Proof.
  intros [H4 H6]. unfold typed_addrs, families_ok, addr_octets.
  destruct (ia_v4p a), (ia_v6p a); cbn [negb orb andb];
    repeat match goal with H : exists _, _ |- _ => destruct H as (?a & ?E & ?L & ?B) end;
    repeat match goal with H : ia_v4 a = _ |- _ => rewrite H | H : ia_v6 a = _ |- _ => rewrite H end;
    (split; [split; cbn [typed_sa]; unfold lenN; try exact I; repeat match goal with L : length _ = _ |- _ => rewrite L; clear L end; reflexivity|]);
    (split; [reflexivity|]); unfold in_field; cbn [sa_octets]; unfold lenN;
    repeat match goal with L : length _ = _ |- _ => rewrite L; clear L end; cbn; rewrite ?app_nil_r;
    try (apply bytes_ok_app; split); try assumption; constructor.
Qed.
Lemma low_bytes w n : bytes_ok (low_octets w n).
Proof. rewrite low_octets_be. apply be_put_ok. Qed.
Lemma opt_bytes p w n : bytes_ok (opt_octets p w n).
Proof. destruct p; [apply low_bytes|constructor]. Qed.
Lemma name_bytes s : Forall (fun b => b < 256) s -> bytes_ok (name_octets s).
Proof.
  rewrite name_octets_is. assert (G : forall s lab, bytes_ok s -> bytes_ok lab -> bytes_ok (apn_labels lab s)).
  { clear. induction s as [|ch s IH]; intros lab Hs Hl; cbn [apn_labels].
    - constructor; [apply N.mod_lt; lia|exact Hl].
    - inversion Hs; subst. destruct (ch =? 46).
      + apply bytes_ok_app. split; [constructor; [apply N.mod_lt; lia|exact Hl]|]. apply IH; [assumption|constructor].
      + apply IH; [assumption|]. apply bytes_ok_app. split; [exact Hl|]. constructor; [assumption|constructor]. }
  intros H. apply G; [exact H|constructor].
Qed.
Lemma valid_name_bytes s : valid_name s -> Forall (fun b => b < 256) s.
Proof.
  intros (labels & (_ & Hl & _) & -> & _). induction Hl as [|l ls Hl Hls IH]; [constructor|].
  assert (Hb : Forall (fun b => b < 256) l) by (eapply Forall_impl; [|exact Hl]; cbn; intros; lia).
  destruct ls as [|l2 ls]; [exact Hb|]. change (join (l :: l2 :: ls)) with (l ++ 46 :: join (l2 :: ls)).
  apply Forall_app. split; [exact Hb|]. constructor; [reflexivity|exact IH].
Qed.

Lemma valid_ie_typed k x : valid_ie k x -> typed_ie k x /\ writable x = true /\ bytes_ok (ie_written k x).
Proof.
  intros H. destruct k, x; cbn [valid_ie] in H; try contradiction; cbn [typed_ie writable ie_written];
    try (split; [exact I|split; [reflexivity|apply low_bytes]]).
  - split; [exact I|split; [reflexivity|]]. constructor; [|constructor]. pose proof (N.mod_lt n 64 ltac:(discriminate)) as Hm. unfold byte_ok in *; lia.
  - split; [exact I|split; [reflexivity|]]. constructor; [|constructor]. pose proof (N.mod_lt n 16 ltac:(discriminate)) as Hm. unfold byte_ok in *; lia.
  - split; [exact I|split; [reflexivity|]]. constructor; [|constructor]. pose proof (N.mod_lt n 16 ltac:(discriminate)) as Hm. unfold byte_ok in *; lia.
  - destruct x as [a|a|s|t]; cbn in H |- *.
    + destruct H as (b & -> & L & B). cbn [typed_sa]. split; [unfold lenN; rewrite L; reflexivity|]. split; [reflexivity|]. constructor; [reflexivity|].
      unfold in_field. cbn [sa_octets]. unfold lenN. rewrite L. cbn. rewrite app_nil_r. exact B.
    + destruct H as (b & -> & L & B). cbn [typed_sa]. split; [unfold lenN; rewrite L; reflexivity|]. split; [reflexivity|]. constructor; [reflexivity|].
      unfold in_field. cbn [sa_octets]. unfold lenN. rewrite L. cbn. rewrite app_nil_r. exact B.
    + split; [exact I|]. split; [reflexivity|]. constructor; [reflexivity|]. apply name_bytes, valid_name_bytes, H.
    + contradiction.
  - destruct H as [L B]. split; [unfold lenN; rewrite L; reflexivity|]. split; [reflexivity|exact B].
  - destruct H as [L B]. split; [unfold lenN; rewrite L; reflexivity|]. split; [reflexivity|exact B].
  - destruct H as [_ H]. destruct (valid_addrs_typed _ H) as (T & F & B). split; [exact T|]. split; [exact F|].
    constructor; [destruct (ia_v6p (fs_addr x)), (ia_v4p (fs_addr x)); reflexivity|]. apply bytes_ok_app. split; [apply low_bytes|exact B].
  - destruct x as [teid a|v4 v6 p i].
    + destruct H as [_ H]. destruct (valid_addrs_typed _ H) as (T & F & B). split; [exact T|]. split; [exact F|].
      constructor; [destruct (ia_v6p a), (ia_v4p a); reflexivity|]. apply bytes_ok_app. split; [apply low_bytes|exact B].
    + split; [exact I|]. split; [reflexivity|]. constructor; [destruct v4, v6, p; reflexivity|apply opt_bytes].
  - destruct H as [L B]. split; [unfold lenN; rewrite L; reflexivity|]. split; [reflexivity|exact B].
  - split; [exact I|]. split; [reflexivity|]. apply name_bytes, valid_name_bytes, H.
  - destruct H as (d0 & d1 & Ed & B0 & B1 & H1 & H2 & H3 & H4 & H5 & H6 & HA & _). destruct (valid_addrs_typed _ HA) as (T & F & B).
    split; [split; [rewrite Ed; reflexivity|exact T]|]. split.
    + unfold described. rewrite Ed. cbn [nth]. unfold bit in *. rewrite H1, H2, H3, H4, H5, H6, !eqb_reflx. reflexivity.
    + rewrite Ed. apply bytes_ok_app. split; [constructor; [exact B0|constructor; [exact B1|constructor]]|].
      repeat first [exact B | apply opt_bytes | apply bytes_ok_app; split].
  - split; [exact I|]. split; [reflexivity|]. destruct H as [H _]. eapply Forall_impl; [|exact H]. cbn. unfold byte_ok. intros; lia.
  - destruct H as (Hd & b & -> & Hb). split; [reflexivity|]. split; [reflexivity|]. constructor; [apply N.mod_lt; lia|].
    destruct (or_extp x); [|constructor]. constructor; [exact Hb|constructor].
  - destruct H as (H & _ & _). destruct (valid_addrs_typed _ H) as (T & F & B). split; [exact T|]. split; [exact F|].
    constructor; [destruct (ia_v6p (ue_addr x)), (ia_v4p (ue_addr x)), (ue_dest x), (ue_delegp x), (ue_chv4 x), (ue_chv6 x), (ue_plenp x); reflexivity|].
    repeat first [exact B | apply opt_bytes | apply bytes_ok_app; split].
Qed.

(* for valid values, the octets are those of the format *)
Lemma labels_of_join labels : labels <> [] -> Forall (fun l => ~ In 46 l) labels -> labels_of (join labels) = labels.
Proof.
  assert (G : forall l rest, ~ In 46 l -> labels_of (l ++ rest) = match labels_of rest with x :: xs => (l ++ x) :: xs | [] => [l] end).
  { induction l as [|a l IH]; intros rest Hn; cbn [app labels_of].
    - destruct (labels_of rest) eqn:E; [destruct (labels_ne _ E)|reflexivity].
    - destruct (N.eqb_spec a 46) as [->|_]; [destruct Hn; left; reflexivity|]. rewrite IH by (intros X; apply Hn; right; exact X).
      destruct (labels_of rest); reflexivity. }
  intros Hne H. induction H as [|l ls Hl Hls IH]; [congruence|]. destruct ls as [|l2 ls].
  - cbn [join]. rewrite <- (app_nil_r l) at 1. rewrite G by exact Hl. cbn. rewrite app_nil_r. reflexivity.
  - change (join (l :: l2 :: ls)) with (l ++ 46 :: join (l2 :: ls)). rewrite G by exact Hl. cbn [labels_of]. change (46 =? 46) with true. cbv iota.
    rewrite IH by discriminate. rewrite app_nil_r. reflexivity.
Qed.
Lemma label_short labels : Forall (fun l => lenN l <= lenN (join labels)) labels.
Proof.
  induction labels as [|l ls IH]; [constructor|]. destruct ls as [|l2 ls].
  - constructor; [cbn [join]; lia|constructor].
  - change (join (l :: l2 :: ls)) with (l ++ 46 :: join (l2 :: ls)). rewrite lenN_app, lenN_cons. constructor; [lia|].
    eapply Forall_impl; [|exact IH]. cbn beta. intros; lia.
Qed.
Lemma valid_name_wire s : valid_name s -> exists labels, labels_ok labels /\ s = join labels /\ name_octets s = wire_labels labels.
Proof.
  intros (labels & Hok & -> & Hl). exists labels. split; [exact Hok|]. split; [reflexivity|]. destruct Hok as (Hne & Hc & _).
  unfold name_octets, wire_labels. rewrite labels_of_join; [|exact Hne|].
  - f_equal. apply map_ext_in. intros l Hin. pose proof (label_short labels) as Hs. rewrite Forall_forall in Hs. specialize (Hs l Hin). rewrite N.mod_small by lia. reflexivity.
  - eapply Forall_impl; [|exact Hc]. intros l H X. unfold label_ok in H. rewrite Forall_forall in H. apply H in X. lia.
Qed.
Lemma in_field_sa4 a p : length a = 4%nat -> in_field 4 (Sa4 a p) = a.
Proof. intros L. unfold in_field. cbn [sa_octets]. unfold lenN. rewrite L. cbn. apply app_nil_r. Qed.
Lemma in_field_sa6 a p : length a = 16%nat -> in_field 16 (Sa6 a p) = a.
Proof. intros L. unfold in_field. cbn [sa_octets]. unfold lenN. rewrite L. cbn. apply app_nil_r. Qed.
Lemma valid_addrs_wire a : valid_addrs a -> addr_octets a = wire_addrs a.
Proof.
  intros [H4 H6]. unfold addr_octets, wire_addrs. destruct (ia_v4p a), (ia_v6p a);
    repeat match goal with H : exists _, _ |- _ => destruct H as (?a & ?E & ?L & ?B) end;
    repeat match goal with H : ia_v4 a = _ |- _ => rewrite H | H : ia_v6 a = _ |- _ => rewrite H end;
    rewrite ?in_field_sa4, ?in_field_sa6 by assumption; reflexivity.
Qed.
Lemma opt_octets_wire p w n : opt_octets p w n = opt_wire p w n.
Proof. unfold opt_wire. apply opt_octets_be. Qed.
Lemma valid_ie_wire k x : valid_ie k x -> wire_ie k x (ie_written k x).
Proof.
  intros H. destruct k, x; cbn [valid_ie] in H; try contradiction; cbn [wire_ie ie_written];
    rewrite ?low_octets_be, ?opt_octets_wire; try reflexivity.
  - cbn. rewrite N.mod_small by exact H. reflexivity.
  - cbn. rewrite N.mod_small by exact H. reflexivity.
  - rewrite N.mod_small by exact H. reflexivity.
  - rewrite N.mod_small by exact H. reflexivity.
  - rewrite N.mod_small by exact H. reflexivity.
  - destruct x as [a|a|s|t].
    + destruct H as (b & -> & L & _). rewrite in_field_sa4 by exact L. reflexivity.
    + destruct H as (b & -> & L & _). rewrite in_field_sa6 by exact L. reflexivity.
    + destruct (valid_name_wire s H) as (labels & A & B & C). exists labels. rewrite C. auto.
    + contradiction.
  - destruct H as [_ H]. rewrite valid_addrs_wire by exact H. destruct (ia_v6p (fs_addr x)), (ia_v4p (fs_addr x)); reflexivity.
  - destruct x as [teid a|v4 v6 p i].
    + destruct H as [_ H]. rewrite valid_addrs_wire by exact H. rewrite low_octets_be. destruct (ia_v6p a), (ia_v4p a); reflexivity.
    + rewrite opt_octets_wire. destruct v4, v6, p; reflexivity.
  - destruct (valid_name_wire s H) as (labels & A & B & C). exists labels. auto.
  - destruct H as (d0 & d1 & Ed & B0 & B1 & H1 & H2 & H3 & H4 & H5 & H6 & HA & _). rewrite valid_addrs_wire by exact HA. reflexivity.
  - destruct H as [H _]. rewrite N.mod_small by exact H. reflexivity.
  - destruct H as (H & _). rewrite valid_addrs_wire by exact H.
    destruct (ia_v6p (ue_addr x)), (ia_v4p (ue_addr x)), (ue_dest x), (ue_delegp x), (ue_chv4 x), (ue_chv6 x), (ue_plenp x); reflexivity.
Qed.

Lemma first_of_none l : Forall (fun x => x = None) l -> first_of l = None.
Proof. intros H. induction H as [|x l -> _ IH]; [reflexivity|]. exact IH. Qed.
Lemma ie_image_bytes t v : t < 65536 -> bytes_ok v -> bytes_ok (ie_image t v).
Proof.
  intros Ht Hv. unfold ie_image. apply bytes_ok_app. split.
  - constructor; [apply N.div_lt_upper_bound; lia|]. constructor; [apply N.mod_lt; lia|constructor].
  - apply bytes_ok_app. split; [|exact Hv]. destruct (N.ltb_spec (lenN v) 65536); [|repeat constructor].
    constructor; [apply N.div_lt_upper_bound; lia|]. constructor; [apply N.mod_lt; lia|constructor].
Qed.

Definition good_at (p : pcoding) : Prop := all_std p -> all_tags tag16 (ptab p) -> forall v, valid_content (sh p) v ->
  valid_val p v /\ typed_val (sh p) v /\ val_error (sh p) v = None /\ bytes_ok (val_image (sh p) v) /\
  (lenN (val_image (sh p) v) <= 65535 -> wire_val p v (val_image (sh p) v)).
Lemma good_slots ies : Forall good_at ies -> Forall all_std ies -> Forall (all_tags tag16) (map ptab ies) -> forall slots, valid_body (map sh ies) slots ->
  valid_struct ies slots /\ typed_struct (map sh ies) slots /\ struct_error (map sh ies) slots = None /\ bytes_ok (struct_image (map sh ies) slots) /\
  (lenN (struct_image (map sh ies) slots) <= 65535 -> wire_struct ies slots (struct_image (map sh ies) slots)).
Proof.
  intros HP Hs Ht. unfold struct_error, struct_image, typed_struct, valid_body, valid_struct.
  induction ies as [|q ies IH]; intros [|s slots] Hv; try contradiction.
  - split; [constructor|]. split; [exact I|]. split; [reflexivity|]. split; [constructor|]. intros _. reflexivity.
  - inversion HP as [|? ? Hq HP']; subst. inversion Hs as [|? ? Hsq Hs']; subst. inversion Ht as [|? ? Htq Ht']; subst.
    cbn [map valid_slots] in Hv. destruct Hv as (Ho & Hv & Hr). destruct (IH HP' Hs' Ht' slots Hr) as (I1 & I2 & I3 & I4 & I5).
    assert (HG : Forall (fun v => valid_val q v /\ typed_val (sh q) v /\ val_error (sh q) v = None /\ bytes_ok (val_image (sh q) v) /\
        (lenN (val_image (sh q) v) <= 65535 -> wire_val q v (val_image (sh q) v))) s).
    { rewrite Forall_forall in *. intros v Hin. apply Hq; auto. }
    cbn [map typed_slots slots_error slots_image].
    split; [constructor; [split; [|eapply Forall_impl; [|exact HG]; cbn; tauto]|exact I1]|].
    { apply occ_head_ok; [apply all_std_head; exact Hsq|]. rewrite <- sh_occ. exact Ho. }
    split; [split; [|split; [eapply Forall_impl; [|exact HG]; cbn; tauto|exact I2]]|].
    { unfold occ_ok in Ho. destruct (occ_of (sh q)); [exact Ho|exact Ho|exact I]. }
    pose proof (all_tags_head _ _ Htq) as (t & A & B). rewrite head_ptab in A.
    assert (Et : iei_of (sh q) = t) by (rewrite sh_iei, A; reflexivity). rewrite Et.
    split; [|split].
    + apply first_of_none. apply Forall_app. split.
      * apply Forall_map. rewrite Forall_forall in *. intros v Hin. apply HG. rewrite <- (firstn_skipn (N.to_nat (at_most (occ_of (sh q)))) s). apply in_or_app. left. exact Hin.
      * assert (E : skipn (N.to_nat (at_most (occ_of (sh q)))) s = []).
        { apply skipn_all2. unfold occ_ok, lenN in Ho. destruct (occ_of (sh q)); cbn [at_most]; lia. }
        rewrite E. constructor; [exact I3|constructor].
    + apply bytes_ok_app. split; [|exact I4].
      clear -HG B. induction HG as [|v s (_ & _ & _ & Hb & _) _ IH]; [constructor|]. cbn [map concat]. apply bytes_ok_app. split; [|exact IH].
      apply ie_image_bytes; assumption.
    + intros Hl. rewrite lenN_app in Hl. cbn [wire_struct]. exists (map (val_image (sh q)) s), (slots_image val_image (map sh ies) slots).
      assert (Hl1 : lenN (concat (map (fun v => ie_image t (val_image (sh q) v)) s)) <= 65535) by lia.
      split; [|split; [|apply I5; lia]].
      * clear -HG Hl1. induction HG as [|v s (_ & _ & _ & _ & Hw) _ IH]; [constructor|]. cbn [map concat] in *. rewrite lenN_app, ie_image_len in Hl1.
        constructor; [apply Hw; lia|apply IH; lia].
      * apply f_equal2; [|reflexivity]. rewrite A. cbn [ti_tag ti_of_tag]. rewrite map_map. clear -Hl1 B. induction s as [|v s IH]; [reflexivity|].
        cbn [map concat] in *. rewrite lenN_app, ie_image_len in Hl1. rewrite IH by lia. apply f_equal2; [|reflexivity].
        unfold ie_image, wire_tlv. destruct (N.ltb_spec (lenN (val_image (sh q) v)) 65536); [|lia].
        rewrite <- !low_octets_be. cbn [low_octets app]. change (256 ^ N.of_nat 1) with 256. change (256 ^ N.of_nat 0) with 1. rewrite !N.div_1_r.
        rewrite (N.mod_small (t / 256)), (N.mod_small (lenN (val_image (sh q) v) / 256)) by (apply N.div_lt_upper_bound; lia). reflexivity.
Qed.
Lemma good_all p : good_at p.
Proof.
  induction p as [h k|h ies IH] using pcoding_ind'; intros Hs Ht v Hv.
  - destruct v as [x|slots]; [|contradiction]. cbn [sh valid_content valid_val typed_val val_error val_image] in *.
    destruct (valid_ie_typed k x Hv) as (A & B & C). rewrite B. pose proof (valid_ie_wire k x Hv). auto 7.
  - destruct v as [x|slots]; [contradiction|]. destruct Hs as [_ Hs]. apply fold_right_and_Forall in Hs.
    cbn [ptab all_tags] in Ht. destruct Ht as [_ Ht]. apply fold_right_and_Forall in Ht.
    destruct (good_slots ies IH Hs Ht slots Hv) as (A & B & C & D & E). split; [apply valid_val_nest; exact A|].
    split; [exact B|]. split; [exact C|]. split; [exact D|]. intros Hl. apply wire_val_nest. exact (E Hl).
Qed.

Lemma valid_body_good t l slots : In (t, l) s_messages -> valid_body l slots ->
  exists ies, get_msg_coding t = Some ies /\ valid_struct ies slots /\ typed_struct l slots /\ struct_error l slots = None /\ bytes_ok (struct_image l slots) /\
    (lenN (struct_image l slots) <= 65535 -> wire_struct ies slots (struct_image l slots)).
Proof.
  intros Hin Hv. apply spec_tables in Hin. destruct Hin as (ies & Et & -> & Hs). exists ies. split; [exact Et|].
  destruct (tables_are_good _ _ Et) as [_ Ht]. apply good_slots; [apply Forall_forall; intros; apply good_all|exact Hs|exact Ht|exact Hv].
Qed.

Lemma header_image_bytes h n : bytes_ok (header_image h n).
Proof.
  unfold header_image. constructor.
  - pose proof (N.mod_lt (hd_version h) 8 ltac:(lia)). destruct (hd_seid h), (hd_prio h); cbn [bits_octet fold_right fst snd];
      change (2 ^ 0) with 1; change (2 ^ 1) with 2; unfold byte_ok; lia.
  - constructor; [apply N.mod_lt; lia|]. cbn [app]. apply bytes_ok_app. split; [apply low_bytes|].
    destruct (hd_seid h) as [s|]; repeat (apply bytes_ok_app; split); try apply low_bytes; try (constructor; [|constructor]); try reflexivity.
    destruct (hd_prio h) as [p|]; [|reflexivity]. pose proof (N.mod_lt p 16 ltac:(lia)). unfold byte_ok; lia.
Qed.

Theorem sent_means m h l slots : In (hd_type h, l) s_messages -> valid_hdr h -> valid_body l slots ->
  header_size h - 4 + lenN (struct_image l slots) <= 65535 ->
  lenN (mb_buf m) + header_size h + lenN (struct_image l slots) <= mb_cap m ->
  exists m' p, msg_encode m h slots = MOk m' /\ mb_buf m' = before m ++ p /\ framed p /\ bytes_ok p /\ message_means p (RxMsg h slots).
Proof.
  intros Hin Hh Hv Hsz Hc. destruct (valid_body_good _ _ _ Hin Hv) as (ies & Et & Hvs & Hty & He & Hb & Hw).
  set (p := header_image h (lenN (struct_image l slots)) ++ struct_image l slots).
  assert (HX : forall m, lenN (mb_buf m) + header_size h + lenN (struct_image l slots) <= mb_cap m -> exists m', msg_encode m h slots = MOk m' /\ mb_buf m' = before m ++ p).
  { intros m0 H0. pose proof (message_exact m0 h l slots Hin Hty H0) as H. unfold message_refusal in H. rewrite He in H.
    assert (E1 : match hd_prio h, hd_seid h with Some _, None => Some EINVAL | _, _ => None end = None).
    { destruct Hh as (_ & _ & _ & Hh). destruct (hd_seid h); [destruct (hd_prio h); reflexivity|]. rewrite Hh. reflexivity. }
    rewrite E1 in H. destruct (N.ltb_spec 65535 (header_size h - 4 + lenN (struct_image l slots))) in H; [lia|].
    cbn [first_of fold_right] in H. destruct H as (m' & A & B & _). exists m'. auto. }
  destruct (HX m Hc) as (m' & A & B). exists m', p. split; [exact A|]. split; [exact B|].
  assert (Hbp : bytes_ok p) by (apply bytes_ok_app; split; [apply header_image_bytes|exact Hb]).
  assert (Hl : lenN (struct_image l slots) <= 65535) by lia. specialize (Hw Hl).
  assert (Ep : p = wire_hdr h false (lenN (struct_image l slots)) ++ struct_image l slots).
  { subst p. apply f_equal2; [|reflexivity]. rewrite <- hdr_bytes_image. rewrite (hdr_bytes_wire h _ Hh); [|exact Hsz|unfold hdr_len; unfold header_size; destruct (hd_seid h); lia].
    f_equal. change (hdr_len h) with (header_size h). lia. }
  assert (Hpl : lenN p = hdr_len h + lenN (struct_image l slots)) by (rewrite Ep, lenN_app, wire_hdr_len; reflexivity).
  assert (Hd : decode_header (p ++ [0]) (lenN p) = Ok (mkDh h (hdr_len h + lenN (struct_image l slots)) (hdr_len h) (lenN (struct_image l slots)))).
  { rewrite Hpl, Ep, <- app_assoc. apply decode_header_wire; try assumption; unfold hdr_len, header_size in *; destruct (hd_seid h); lia. }
  assert (Hf : framed p).
  { apply message_framed. exists (mkDh h (hdr_len h + lenN (struct_image l slots)) (hdr_len h) (lenN (struct_image l slots))).
    cbn [dh_len dh_ofs]. split; [|split; [symmetry; exact Hpl|lia]]. rewrite (header_exact p [0] Hbp) in Hd. pose proof (header_exact p [] Hbp) as E. rewrite app_nil_r in E. rewrite E. exact Hd. }
  split; [exact Hf|]. split; [exact Hbp|]. apply message_means_iff; [exact Hf|exact Hbp|]. unfold outcome.
  pose proof (header_exact p [] Hbp) as E. rewrite app_nil_r in E. rewrite (header_exact p [0] Hbp) in Hd. rewrite E, Hd. cbn [dh_h dh_len dh_ofs].
  rewrite Ep, dropN_app' by (rewrite wire_hdr_len; reflexivity). replace (hdr_len h + lenN (struct_image l slots) - hdr_len h) with (lenN (struct_image l slots)) by lia.
  rewrite (decode_tlv_wire _ ies slots _ [0] Et Hvs Hw); [reflexivity|exact Hl|left; reflexivity].
Qed.
