(* PutProofs.v -- C91, C92: encoding writes exactly the octets of PutSpec, or fails with exactly that error *)
From Verif Require Import Base BaseProofs GtlvModel GtlvSpec GtlvProofs DecEncModel DecEncSpec DecEncProofs EncShapeProofs WfProofs
  IesModel IesSpec IesProofs HelperProofs TablesModel MsgModel MsgSpec MsgProofs MsgEncProofs MsgFinalProofs AcceptSpec AcceptProofs ErrnoSpec PutSpec.

(* ---------------------------------------------------------------- octets *)
Lemma low_octets_last w : forall n, low_octets (S w) n = low_octets w (n / 256) ++ [n mod 256].
Proof.
  induction w as [|w IH]; intros n.
  - cbn [low_octets app]. change (256 ^ N.of_nat 0) with 1. rewrite N.div_1_r. reflexivity.
  - change (low_octets (S (S w)) n) with (n / 256 ^ N.of_nat (S w) mod 256 :: low_octets (S w) n). rewrite IH.
    cbn [low_octets app]. apply f_equal2; [|reflexivity].
    rewrite N.div_div by (try apply N.pow_nonzero; lia). rewrite Nat2N.inj_succ, N.pow_succ_r'. reflexivity.
Qed.
Lemma low_octets_be w : forall n, low_octets w n = be_put w n.
Proof. induction w as [|w IH]; intros n; [reflexivity|]. rewrite low_octets_last, IH. reflexivity. Qed.
Lemma low_octets_len w n : lenN (low_octets w n) = N.of_nat w.
Proof. rewrite low_octets_be. apply be_put_lenN. Qed.
Lemma opt_octets_be p w n : opt_octets p w n = if p then be_put w n else [].
Proof. unfold opt_octets. rewrite low_octets_be. reflexivity. Qed.

Lemma zeros_repeat n : zeros n = repeat 0 n.
Proof. induction n as [|n IH]; [reflexivity|]. cbn [zeros repeat]. rewrite IH. reflexivity. Qed.
Lemma in_field_is n x : in_field n x = sa_to_octets (N.of_nat n) x.
Proof.
  unfold in_field, sa_to_octets. fold (sa_octets x). rewrite Nat2N.id.
  rewrite !zeros_repeat. destruct (N.leb_spec (lenN (sa_octets x)) (N.of_nat n)); destruct (N.ltb_spec (N.of_nat n) (lenN (sa_octets x))); try lia; [|reflexivity].
  f_equal. f_equal. unfold lenN. lia.
Qed.
Lemma in_field_len n x : lenN (in_field n x) = N.of_nat n.
Proof.
  unfold in_field. destruct (N.leb_spec (lenN (sa_octets x)) (N.of_nat n)).
  - rewrite lenN_app. unfold lenN in *. rewrite repeat_length. lia.
  - unfold lenN. rewrite repeat_length. reflexivity.
Qed.

Lemma labels_ne s : labels_of s <> [].
Proof. destruct s as [|a s]; cbn; [discriminate|]. destruct (a =? 46); [discriminate|]. destruct (labels_of s); discriminate. Qed.
Lemma apn_labels_of s : forall lab, apn_labels lab s =
  match labels_of s with l :: ls => concat (map (fun l => lenN l mod 256 :: l) ((lab ++ l) :: ls)) | [] => [] end.
Proof.
  induction s as [|ch s IH]; intros lab; cbn [apn_labels labels_of].
  - cbn [map concat]. rewrite !app_nil_r. reflexivity.
  - destruct (ch =? 46).
    + rewrite IH. destruct (labels_of s) as [|l ls] eqn:E; [destruct (labels_ne _ E)|]. cbn [map concat app]. rewrite app_nil_r. reflexivity.
    + rewrite IH. destruct (labels_of s) as [|l ls] eqn:E; [destruct (labels_ne _ E)|]. rewrite <- app_assoc. reflexivity.
Qed.
Lemma name_octets_is s : name_octets s = apn_labels [] s.
Proof. rewrite apn_labels_of. unfold name_octets. destruct (labels_of s) as [|l ls] eqn:E; [destruct (labels_ne _ E)|reflexivity]. Qed.
Lemma apn_labels_len s : forall lab, lenN (apn_labels lab s) = lenN lab + lenN s + 1.
Proof.
  induction s as [|ch s IH]; intros lab; cbn [apn_labels].
  - rewrite lenN_cons, lenN_nil. lia.
  - rewrite (lenN_cons ch s). destruct (ch =? 46).
    + rewrite lenN_app, lenN_cons, IH, lenN_nil. lia.
    + rewrite IH, lenN_app, lenN_cons, lenN_nil. lia.
Qed.
Lemma apn_from_octets room s : lenN (name_octets s) <= room -> apn_from_str room s = Some (name_octets s).
Proof.
  rewrite name_octets_is, apn_labels_len, lenN_nil. intros H. unfold apn_from_str. destruct (N.ltb_spec room (lenN s + 1)); [lia|reflexivity].
Qed.
(* the labels are what the dots separate *)
Lemma labels_join s : join (labels_of s) = s /\ Forall (fun l => ~ In 46 l) (labels_of s).
Proof.
  induction s as [|ch s [IH1 IH2]]; cbn [labels_of].
  - split; [reflexivity|]. repeat constructor. intros [].
  - destruct (N.eqb_spec ch 46) as [->|Hn].
    + split; [|constructor; [intros []|exact IH2]]. destruct (labels_of s) as [|l ls] eqn:E; [destruct (labels_ne _ E)|].
      cbn [join app]. cbn [join] in IH1. rewrite IH1. reflexivity.
    + destruct (labels_of s) as [|l ls] eqn:E; [destruct (labels_ne _ E)|]. inversion IH2; subst. split.
      * destruct ls; cbn [join app] in *; reflexivity.
      * constructor; [|assumption]. intros [X|X]; [congruence|contradiction].
Qed.

(* ---------------------------------------------------------------- one value *)
Definition short_of (b full : list N) : Prop := lenN b <= lenN full.
Lemma enc_addrs_put pre a : 
  if families_ok a then enc_addrs pre a = (pre ++ addr_octets a, None)
  else exists b, enc_addrs pre a = (b, Some EINVAL) /\ short_of b (pre ++ addr_octets a).
Proof.
  unfold families_ok, enc_addrs, addr_octets, short_of. rewrite !(in_field_is).
  change (N.of_nat 4) with 4. change (N.of_nat 16) with 16.
  change (is_inet (ia_v4 a)) with (match ia_v4 a with Sa4 _ _ => true | _ => false end).
  change (is_inet6 (ia_v6 a)) with (match ia_v6 a with Sa6 _ _ => true | _ => false end).
  destruct (ia_v4p a); cbn [negb orb andb]; [destruct (match ia_v4 a with Sa4 _ _ => true | _ => false end); cbn [negb andb]|];
    (destruct (ia_v6p a); cbn [negb orb andb]; [destruct (match ia_v6 a with Sa6 _ _ => true | _ => false end); cbn [negb andb]|]);
    try (rewrite <- ?app_assoc, ?app_nil_r; reflexivity); eexists; (split; [reflexivity|rewrite !lenN_app; lia]).
Qed.

Lemma be1 n : be_put 1 n = [n mod 256]. Proof. reflexivity. Qed.
Lemma mod_mod n a b : b <> 0 -> (n mod (a * b)) mod b = n mod b.
Proof.
  intros Hb. destruct (N.eq_dec a 0) as [->|Ha]; [rewrite N.mul_0_l; destruct n; reflexivity|].
  rewrite (N.mul_comm a b). rewrite N.mod_mul_r by assumption. rewrite (N.mul_comm b), N.mod_add by assumption. apply N.mod_mod. exact Hb.
Qed.

Lemma ie_put k room x : typed_ie k x -> lenN (ie_written k x) <= room ->
  if writable x then enc_of k room x = (ie_written k x, None)
  else exists b, enc_of k room x = (b, Some EINVAL) /\ lenN b <= lenN (ie_written k x).
Proof.
  intros Ht Hr. destruct k, x; cbn [typed_ie] in Ht; try contradiction; cbn [enc_of writable ie_written] in *;
    rewrite ?low_octets_be; try reflexivity.
  - (* 3gpp iface *) cbn [enc_3gpp_iface_type]. rewrite be1. change 256 with (4 * 64) at 1. rewrite (mod_mod n 4 64) by lia. f_equal. f_equal. apply N.mod_small. pose proof (N.mod_lt n 64). lia.
  - cbn [enc_iface]. rewrite be1. change 256 with (16 * 16) at 1. rewrite (mod_mod n 16 16) by lia. f_equal. f_equal. apply N.mod_small. pose proof (N.mod_lt n 16). lia.
  - cbn [enc_iface]. rewrite be1. change 256 with (16 * 16) at 1. rewrite (mod_mod n 16 16) by lia. f_equal. f_equal. apply N.mod_small. pose proof (N.mod_lt n 16). lia.
  - (* node id *) destruct x as [a|a|s|t]; cbn [enc_node_id].
    + rewrite in_field_is. reflexivity.
    + rewrite in_field_is. reflexivity.
    + rewrite lenN_cons in Hr. rewrite apn_from_octets by lia. reflexivity.
    + eexists. split; [reflexivity|lia].
  - (* f_seid *) cbn [enc_f_seid]. pose proof (enc_addrs_put ([b2n (ia_v6p (fs_addr x)) 1 + b2n (ia_v4p (fs_addr x)) 2] ++ be_put 8 (fs_seid x)) (fs_addr x)) as H.
    assert (E : bits_octet [(ia_v6p (fs_addr x), 0); (ia_v4p (fs_addr x), 1)] = b2n (ia_v6p (fs_addr x)) 1 + b2n (ia_v4p (fs_addr x)) 2)
      by (destruct (ia_v6p (fs_addr x)), (ia_v4p (fs_addr x)); reflexivity).
    rewrite E. destruct (families_ok (fs_addr x)); exact H.
  - (* f_teid *) destruct x as [teid a|v4 v6 p i]; cbn [enc_f_teid].
    + rewrite ?low_octets_be. pose proof (enc_addrs_put ([b2n (ia_v4p a) 1 + b2n (ia_v6p a) 2] ++ be_put 4 teid) a) as H.
      assert (E : bits_octet [(ia_v4p a, 0); (ia_v6p a, 1)] = b2n (ia_v4p a) 1 + b2n (ia_v6p a) 2) by (destruct (ia_v4p a), (ia_v6p a); reflexivity).
      rewrite E. destruct (families_ok a); exact H.
    + rewrite opt_octets_be. destruct v4, v6, p; reflexivity.
  - (* network instance *) cbn [enc_network_inst]. rewrite apn_from_octets by exact Hr. reflexivity.
  - (* ohc *) destruct Ht as [L _]. unfold described.
    cbn [enc_ohc]. unfold oh_bits. rewrite !bits_get_bit by (rewrite L; vm_compute; reflexivity). cbn [bind].
    set (d := nth 0 (oh_desc x) 0).
    change (nth (N.to_nat (0 / 8)) (oh_desc x) 0) with d.
    change (nth (N.to_nat (1 / 8)) (oh_desc x) 0) with d. change (nth (N.to_nat (2 / 8)) (oh_desc x) 0) with d.
    change (nth (N.to_nat (3 / 8)) (oh_desc x) 0) with d. change (nth (N.to_nat (4 / 8)) (oh_desc x) 0) with d.
    change (nth (N.to_nat (5 / 8)) (oh_desc x) 0) with d. change (nth (N.to_nat (6 / 8)) (oh_desc x) 0) with d.
    change (nth (N.to_nat (7 / 8)) (oh_desc x) 0) with d.
    change (0 mod 8) with 0. change (1 mod 8) with 1. change (2 mod 8) with 2. change (3 mod 8) with 3.
    change (4 mod 8) with 4. change (5 mod 8) with 5. change (6 mod 8) with 6. change (7 mod 8) with 7. cbv zeta.
    unfold addr_octets. rewrite !opt_octets_be, !in_field_is. change (N.of_nat 4) with 4. change (N.of_nat 16) with 16.
    assert (Hcase : forall p q : bool, (p = q /\ eqb p q = true /\ eqb q p = true) \/ (eqb p q = false /\ eqb q p = false)) by (intros [] []; cbn; auto).
    repeat (match goal with |- context [negb (eqb ?p ?q)] =>
      destruct (Hcase p q) as [(E & E1 & E2)|(E1 & E2)]; rewrite E1, E2; cbn [negb andb];
      [rewrite <- ?E; clear E E1 E2|eexists; split; [reflexivity|rewrite !lenN_app; lia]] end).
    rewrite <- !app_assoc. reflexivity.
  - (* ue ip *) cbn [enc_ue_ip].
    set (f := b2n _ 64 + _ + _ + _ + _ + _ + _). pose proof (enc_addrs_put [f] (ue_addr x)) as H.
    assert (E : bits_octet [(ia_v6p (ue_addr x), 0); (ia_v4p (ue_addr x), 1); (ue_dest x, 2); (ue_delegp x, 3); (ue_chv4 x, 4); (ue_chv6 x, 5); (ue_plenp x, 6)] = f)
      by (subst f; destruct (ia_v6p (ue_addr x)), (ia_v4p (ue_addr x)), (ue_dest x), (ue_delegp x), (ue_chv4 x), (ue_chv6 x), (ue_plenp x); reflexivity).
    rewrite E, !opt_octets_be. destruct (families_ok (ue_addr x)).
    + rewrite H. rewrite <- !app_assoc. reflexivity.
    + destruct H as (b & -> & H). exists b. split; [reflexivity|]. unfold short_of in H. cbn [app] in H. rewrite lenN_cons in *. rewrite !lenN_app in *. lia.
Qed.

(* ---------------------------------------------------------------- structs *)
Definition puts (enc : cfg -> N -> list N -> val iev -> eres) (img : val iev -> list N) (err : val iev -> option errno) (v : val iev) : Prop :=
  forall cap buf, lenN buf + lenN (img v) <= cap ->
    match err v with
    | None => enc t16l16v cap buf v = EOk (buf ++ img v)
    | Some e => exists b, enc t16l16v cap buf v = EErr b e
    end.
Definition over (h : chead) (i : N) : bool := match h_multi h with Some (mx, _) => mx <=? i | None => false end.
Fixpoint errs (h : chead) (err : val iev -> option errno) (i : N) (vals : list (val iev)) : list (option errno) :=
  match vals with [] => [] | v :: r => (if over h i then Some ENOTSUP else err v) :: errs h err (i + 1) r end.

Lemma ie_image_len t v : lenN (ie_image t v) = 4 + lenN v.
Proof. unfold ie_image. destruct (lenN v <? 65536); cbn [app]; rewrite !lenN_cons; lia. Qed.
Lemma hdr_image t l : t < 65536 -> l < 65536 -> hdr_t16l16v (ti_of_tag t) l = [t / 256; t mod 256; l / 256; l mod 256].
Proof.
  intros Ht Hl. unfold hdr_t16l16v. reflexivity.
Qed.

Lemma enc_vals_put (e : eentry iev) img err t : h_ti (ee_h e) = ti_of_tag t -> t < 65536 ->
  forall vals i p, Forall (puts (ee_enc e) img err) vals ->
    lenN (pt_buf p) + lenN (concat (map (fun v => ie_image t (img v)) vals)) <= pt_cap p ->
    match first_of (errs (ee_h e) err i vals) with
    | None => exists p', enc_vals t16l16v e p i vals = POk p' /\ pt_cap p' = pt_cap p
                /\ pt_buf p' = pt_buf p ++ concat (map (fun v => ie_image t (img v)) vals)
    | Some er => exists p', enc_vals t16l16v e p i vals = PErr p' er
    end.
Proof.
  intros Hti Ht. destruct t16l16v_fixed as (FL & FS & _).
  assert (Htag : tag16 (h_ti (ee_h e))) by (exists t; split; [exact Hti|exact Ht]).
  induction vals as [|v vals IH]; intros i p Hp Hc.
  - cbn. exists p. rewrite app_nil_r. auto.
  - inversion Hp as [|? ? Hv Hp']; subst. cbn [map concat] in *. rewrite lenN_app, ie_image_len in Hc.
    cbn [errs first_of fold_right enc_vals]. fold (first_of (errs (ee_h e) err (i + 1) vals)).
    unfold put_tli, tailroom. rewrite (FS _ 0 _ Htag) by lia. rewrite FL. destruct (N.ltb_spec (pt_cap p - lenN (pt_buf p)) 4); [lia|].
    fold (over (ee_h e) i). destruct (over (ee_h e) i).
    { eexists. reflexivity. }
    cbn [pt_cap pt_buf pt_last]. specialize (Hv (pt_cap p) (pt_buf p ++ hdr_t16l16v (h_ti (ee_h e)) 0)).
    rewrite lenN_app, FL in Hv. specialize (Hv ltac:(lia)). destruct (err v) as [er|].
    { destruct Hv as (b & ->). eexists. reflexivity. }
    rewrite Hv. unfold put_update_tl. cbn [pt_cap pt_buf pt_last].
    replace (lenN ((pt_buf p ++ hdr_t16l16v (h_ti (ee_h e)) 0) ++ img v) - (lenN (pt_buf p) + 4)) with (lenN (img v)) by (rewrite !lenN_app, FL; lia).
    replace (lenN (pt_buf p) + 4 - lenN (pt_buf p)) with 4 by lia.
    assert (HE : exists p2, (exists rc, match cfg_store t16l16v 4 (h_ti (ee_h e)) (lenN (img v)) with
                 | Ok hdr => (mkPut (overwrite ((pt_buf p ++ hdr_t16l16v (h_ti (ee_h e)) 0) ++ img v) (lenN (pt_buf p)) hdr) (pt_cap p)
                               (Some (h_ti (ee_h e), lenN (pt_buf p), lenN (pt_buf p) + lenN hdr)), Ok tt)
                 | Err e0 => (mkPut ((pt_buf p ++ hdr_t16l16v (h_ti (ee_h e)) 0) ++ img v) (pt_cap p) (Some (h_ti (ee_h e), lenN (pt_buf p), lenN (pt_buf p) + 4)), Err e0)
                 | UB u => (mkPut ((pt_buf p ++ hdr_t16l16v (h_ti (ee_h e)) 0) ++ img v) (pt_cap p) (Some (h_ti (ee_h e), lenN (pt_buf p), lenN (pt_buf p) + 4)), UB u)
                 end = (p2, rc) /\ forall u, rc <> UB u) /\ pt_cap p2 = pt_cap p /\ pt_buf p2 = pt_buf p ++ ie_image t (img v)).
    { unfold ie_image. destruct (N.ltb_spec (lenN (img v)) 65536).
      - rewrite (FS _ (lenN (img v)) 4 Htag) by lia. eexists. split; [eexists; split; [reflexivity|discriminate]|]. cbn [pt_cap pt_buf].
        split; [reflexivity|]. rewrite <- app_assoc, overwrite_mid by (rewrite !FL; reflexivity). rewrite Hti, hdr_image by lia. reflexivity.
      - destruct (t16l16v_store_cases 4 (h_ti (ee_h e)) (lenN (img v))) as [(B & _)|[(_ & _ & E)|[(_ & B & _)|(_ & B & _)]]]; try lia.
        + rewrite Hti in B. cbn in B. lia.
        + rewrite E. eexists. split; [eexists; split; [reflexivity|discriminate]|]. cbn [pt_cap pt_buf].
          split; [reflexivity|]. rewrite Hti, hdr_image by lia. rewrite <- app_assoc. reflexivity. }
    destruct HE as (p2 & (rc & -> & Hrc) & Hcap & Hbuf).
    assert (Hn : lenN (pt_buf p2) + lenN (concat (map (fun v => ie_image t (img v)) vals)) <= pt_cap p2)
      by (rewrite Hbuf, Hcap, lenN_app, ie_image_len; lia).
    specialize (IH (i + 1) p2 Hp' Hn). rewrite Hcap, Hbuf, <- app_assoc in IH.
    destruct rc as [u|er|u]; [exact IH|exact IH|destruct (Hrc u eq_refl)].
Qed.

Lemma errs_limit h err mx mand vals : h_multi h = Some (mx, mand) -> forall i,
  errs h err i vals = map err (firstn (N.to_nat (mx - i)) vals) ++ map (fun _ => Some ENOTSUP) (skipn (N.to_nat (mx - i)) vals).
Proof.
  intros Hm. induction vals as [|v vals IH]; intros i; cbn [errs].
  - rewrite firstn_nil, skipn_nil. reflexivity.
  - rewrite IH. unfold over. rewrite Hm. destruct (N.leb_spec mx i).
    + replace (mx - i) with 0 by lia. replace (mx - (i + 1)) with 0 by lia. reflexivity.
    + replace (N.to_nat (mx - i)) with (S (N.to_nat (mx - (i + 1)))) by lia. reflexivity.
Qed.
Lemma errs_single h err v : h_multi h = None -> errs h err 0 [v] = [err v].
Proof. intros Hm. cbn [errs]. unfold over. rewrite Hm. reflexivity. Qed.

Lemma first_of_app a b : first_of (a ++ b) = match first_of a with Some e => Some e | None => first_of b end.
Proof. induction a as [|[e|] a IH]; cbn [app first_of fold_right] in *; [reflexivity|reflexivity|exact IH]. Qed.

Definition puts_at (p : pcoding) : Prop := all_std p -> all_tags tag16 (ptab p) -> forall v, typed_val (sh p) v ->
  puts (enc_coding (ptab p)) (val_image (sh p)) (val_error (sh p)) v.

Lemma slot_errs p s : head_std (phead p) -> match occ_of (sh p) with Once => lenN s = 1 | Optional => lenN s <= 1 | Many _ => True end ->
  to_encode (phead p) s = s /\
  first_of (errs (phead p) (val_error (sh p)) 0 s) =
  first_of (map (val_error (sh p)) (firstn (N.to_nat (at_most (occ_of (sh p)))) s) ++ map (fun _ => Some ENOTSUP) (skipn (N.to_nat (at_most (occ_of (sh p)))) s)).
Proof.
  intros [_ Hs] Hn. rewrite sh_occ in *. unfold occ_head in *. unfold to_encode. destruct (h_multi (phead p)) as [[mx mand]|] eqn:Em.
  - destruct Hs as [-> Hp]. rewrite Hp in *. split; [reflexivity|]. rewrite (errs_limit _ _ 32 mand s Em). reflexivity.
  - assert (Hl : s = [] \/ exists v, s = [v]).
    { destruct s as [|v [|w s]]; [left; reflexivity|right; eexists; reflexivity|]. destruct (h_pres (phead p)); rewrite !lenN_cons in Hn; lia. }
    destruct Hl as [->|(v & ->)]; [split; [reflexivity|]; destruct (h_pres (phead p)); reflexivity|].
    split; [reflexivity|]. rewrite (errs_single _ _ _ Em). destruct (h_pres (phead p)); reflexivity.
Qed.

Lemma slots_put ies : Forall puts_at ies -> Forall all_std ies -> Forall (all_tags tag16) (map ptab ies) ->
  forall slots p, typed_struct (map sh ies) slots ->
    lenN (pt_buf p) + lenN (struct_image (map sh ies) slots) <= pt_cap p ->
    match struct_error (map sh ies) slots with
    | None => exists p', enc_entries t16l16v (map eentry_of (map ptab ies)) p slots = POk p' /\ pt_cap p' = pt_cap p
                /\ pt_buf p' = pt_buf p ++ struct_image (map sh ies) slots
    | Some er => exists p', enc_entries t16l16v (map eentry_of (map ptab ies)) p slots = PErr p' er
    end.
Proof.
  intros HP Hs Ht. unfold struct_error, struct_image, typed_struct.
  induction ies as [|q ies IH]; intros [|s slots] p Hty Hc; try contradiction.
  - cbn. exists p. rewrite app_nil_r. auto.
  - inversion HP as [|? ? Hq HP']; subst. inversion Hs as [|? ? Hsq Hs']; subst. inversion Ht as [|? ? Htq Ht']; subst.
    cbn [map typed_slots] in Hty. destruct Hty as (Ho & Hv & Hty). cbn [map slots_image slots_error] in *.
    rewrite app_assoc, first_of_app. rewrite lenN_app in Hc.
    pose proof (all_std_head _ Hsq) as Hh. destruct (slot_errs q s Hh Ho) as [Ht1 Ht2]. rewrite <- Ht2. clear Ht2.
    assert (Eh : ee_h (eentry_of (ptab q)) = phead q) by (exact (head_ptab q)). cbn [enc_entries]. rewrite Eh, Ht1.
    assert (Htag : exists t, h_ti (phead q) = ti_of_tag t /\ t < 65536).
    { pose proof (all_tags_head _ _ Htq) as (t & A & B). rewrite head_ptab in A. exists t. auto. }
    destruct Htag as (t & Hti & Htl).
    assert (Hvs : Forall (puts (enc_coding (ptab q)) (val_image (sh q)) (val_error (sh q))) s).
    { rewrite Forall_forall in *. intros v Hin. apply Hq; auto. }
    assert (Et : iei_of (sh q) = t) by (rewrite sh_iei, Hti; reflexivity). rewrite Et in *.
    assert (Hc' : lenN (pt_buf p) + lenN (concat (map (fun v => ie_image t (val_image (sh q) v)) s)) <= pt_cap p) by lia.
    pose proof (enc_vals_put (eentry_of (ptab q)) (val_image (sh q)) (val_error (sh q)) t) as HE. rewrite Eh in HE.
    specialize (HE Hti Htl s 0 p Hvs Hc'). destruct (first_of (errs (phead q) (val_error (sh q)) 0 s)) as [er|].
    { destruct HE as (p' & HE). exists p'. rewrite HE. reflexivity. }
    destruct HE as (p' & HE & Hcap & Hbuf). rewrite HE.
    assert (Hc2 : lenN (pt_buf p') + lenN (slots_image val_image (map sh ies) slots) <= pt_cap p') by (rewrite Hbuf, Hcap, lenN_app; lia).
    specialize (IH HP' Hs' Ht' slots p' Hty Hc2). cbn [first_of fold_right].
    destruct (slots_error val_error (map sh ies) slots) as [er|].
    + exact IH.
    + destruct IH as (p2 & I1 & I2 & I3). exists p2. split; [exact I1|]. split; [congruence|]. rewrite I3, Hbuf, <- app_assoc. reflexivity.
Qed.

Lemma puts_all p : puts_at p.
Proof.
  induction p as [h k|h ies IH] using pcoding_ind'; intros Hs Ht v Hv cap buf Hc.
  - destruct v as [x|slots]; [|contradiction]. cbn [sh typed_val val_image val_error ptab enc_coding leaf_of lf_enc] in *.
    pose proof (ie_put k (tailroom buf cap) x Hv) as H. unfold tailroom in *. specialize (H ltac:(lia)).
    destruct (writable x).
    + rewrite H. destruct (N.ltb_spec (cap - lenN buf) (lenN (ie_written k x))); [lia|reflexivity].
    + destruct H as (b & -> & Hb). destruct (N.ltb_spec (cap - lenN buf) (lenN b)); [lia|]. eexists. reflexivity.
  - destruct v as [x|slots]; [contradiction|]. cbn [sh typed_val val_image val_error ptab enc_coding] in *.
    destruct Hs as [_ Hs]. apply fold_right_and_Forall in Hs. cbn [all_tags] in Ht. destruct Ht as [_ Ht]. apply fold_right_and_Forall in Ht.
    pose proof (slots_put ies IH Hs Ht slots (mkPut buf cap None) Hv Hc) as H. unfold struct_error, struct_image in H.
    change (map (fun d => mkEEntry (head d) (enc_coding d)) (map ptab ies)) with (map (@eentry_of iev) (map ptab ies)).
    unfold enc_list. destruct (slots_error val_error (map sh ies) slots) as [er|].
    + destruct H as (p' & ->). eexists. reflexivity.
    + destruct H as (p' & -> & _ & H). rewrite H. reflexivity.
Qed.

Theorem encode_exact t l slots cap buf : In (t, l) s_messages -> typed_struct l slots -> lenN buf + lenN (struct_image l slots) <= cap ->
  match struct_error l slots with
  | None => encode_tlv cap buf t slots = EOk (buf ++ struct_image l slots)
  | Some e => exists b, encode_tlv cap buf t slots = EErr b e
  end.
Proof.
  intros Hin Hty Hc. apply spec_tables in Hin. destruct Hin as (ies & Et & -> & Hs).
  destruct (tables_are_good _ _ Et) as [_ Ht]. unfold encode_tlv, msg_table. rewrite Et. cbn [option_map gtlvs_encode].
  pose proof (slots_put ies ltac:(apply Forall_forall; intros; apply puts_all) Hs Ht slots (mkPut buf cap None) Hty Hc) as H.
  unfold enc_list. destruct (struct_error (map sh ies) slots) as [er|].
  - destruct H as (p' & ->). eexists. reflexivity.
  - destruct H as (p' & -> & _ & H). rewrite H. reflexivity.
Qed.

(* ---------------------------------------------------------------- messages *)
Lemma lor4 b : N.lor b 4 = N.setbit b 2.
Proof. symmetry. apply N.setbit_spec'. Qed.
Lemma set_flag_over l : forall i b, nth_error l i = Some b -> overwrite l (N.of_nat i) [N.lor b 4] = set_flag_at i l.
Proof.
  induction l as [|x l IH]; intros [|i] b H; cbn [nth_error] in H; try discriminate.
  - injection H as ->. unfold overwrite. cbn [set_flag_at]. rewrite lor4. reflexivity.
  - cbn [set_flag_at]. rewrite <- (IH i b H). unfold overwrite, takeN, dropN. 
    replace (N.to_nat (N.of_nat (S i))) with (S (N.to_nat (N.of_nat i))) by lia.
    replace (N.to_nat (N.of_nat (S i) + lenN [N.lor b 4])) with (S (N.to_nat (N.of_nat i + lenN [N.lor b 4]))) by lia. reflexivity.
Qed.
Lemma set_flag_none l : forall i, nth_error l i = None -> set_flag_at i l = l.
Proof. induction l as [|x l IH]; intros [|i] H; cbn in *; try reflexivity; try discriminate. rewrite IH by exact H. reflexivity. Qed.
Lemma set_flag_len l : forall i, lenN (set_flag_at i l) = lenN l.
Proof. induction l as [|x l IH]; intros [|i]; cbn [set_flag_at]; rewrite ?lenN_cons, ?IH; reflexivity. Qed.
Lemma before_is m : match mb_l4 m with
              | Some o => if o <? lenN (mb_buf m) then set_follow_on (mb_buf m) o else mb_buf m
              | None => mb_buf m
              end = before m.
Proof.
  unfold before. destruct (mb_l4 m) as [o|]; [|reflexivity]. unfold set_follow_on.
  destruct (nth_error (mb_buf m) (N.to_nat o)) as [b|] eqn:E.
  - assert (o < lenN (mb_buf m)). { assert (H : nth_error (mb_buf m) (N.to_nat o) <> None) by congruence. apply nth_error_Some in H. unfold lenN. lia. }
    destruct (N.ltb_spec o (lenN (mb_buf m))); [|lia]. rewrite <- (set_flag_over _ _ _ E), N2Nat.id. reflexivity.
  - rewrite (set_flag_none _ _ E). destruct (o <? lenN (mb_buf m)); reflexivity.
Qed.
Lemma before_len m : lenN (before m) = lenN (mb_buf m).
Proof. unfold before. destruct (mb_l4 m); [apply set_flag_len|reflexivity]. Qed.

Lemma hdr_bytes_image h n : hdr_bytes h (header_size h - 4 + n) = header_image h n.
Proof.
  unfold hdr_bytes, header_image, hdr_flags, header_size. rewrite !low_octets_be.
  destruct (hd_seid h) as [s|]; destruct (hd_prio h) as [p|]; cbn [is_some bits_octet fold_right fst snd];
    rewrite ?low_octets_be; (apply f_equal2; [|reflexivity]); (apply f_equal2; [|reflexivity]); change (2 ^ 0) with 1; change (2 ^ 1) with 2; lia.
Qed.
Lemma header_image_len h n : lenN (header_image h n) = header_size h.
Proof. unfold header_image, header_size. destruct (hd_seid h); rewrite !lenN_app, !lenN_cons, !low_octets_len, !lenN_nil; reflexivity. Qed.

Theorem message_exact m h l slots : In (hd_type h, l) s_messages -> typed_struct l slots ->
  lenN (mb_buf m) + header_size h + lenN (struct_image l slots) <= mb_cap m ->
  match message_refusal h l slots with
  | None => exists m', msg_encode m h slots = MOk m'
              /\ mb_buf m' = before m ++ header_image h (lenN (struct_image l slots)) ++ struct_image l slots
              /\ mb_cap m' = mb_cap m /\ mb_l4 m' = Some (lenN (mb_buf m))
  | Some e => exists m', msg_encode m h slots = MErr m' e
  end.
Proof.
  intros Hin Hty Hc. unfold msg_encode. rewrite before_is. cbv zeta.
  unfold enc_pfcp_header. rewrite before_len.
  assert (Hsz : hdr_size (is_some (hd_seid h)) = header_size h) by (unfold header_size; destruct (hd_seid h); reflexivity). rewrite Hsz.
  destruct (N.ltb_spec (mb_cap m - lenN (mb_buf m)) (header_size h)); [lia|].
  unfold message_refusal. change hdr_common_size with 4.
  assert (H1 : (hd_seid h = None /\ exists p, hd_prio h = Some p) \/
    (match hd_prio h, hd_seid h with Some _, None => Some EINVAL | _, _ => None end = None /\
      forall b, match hd_seid h, hd_prio h with None, Some _ => EErr b EINVAL | _, _ => EOk b end = EOk b))
    by (destruct (hd_seid h), (hd_prio h); eauto).
  destruct H1 as [(E1 & p & E2)|(E1 & E2)].
  { rewrite E1, E2. cbn [first_of fold_right]. eexists. reflexivity. }
  rewrite E1, E2. clear E1 E2. cbn [first_of fold_right].
  replace (header_size h - 4) with (header_size h - 4 + 0) by lia. rewrite hdr_bytes_image.
  pose proof (encode_exact (hd_type h) l slots (mb_cap m) (before m ++ header_image h 0) Hin Hty) as HE.
  rewrite lenN_app, before_len, header_image_len in HE. specialize (HE ltac:(lia)).
  destruct (struct_error l slots) as [e|].
  { destruct HE as (b & ->). eexists. reflexivity. }
  rewrite HE. rewrite !lenN_app, before_len, header_image_len.
  replace (lenN (mb_buf m) + header_size h + lenN (struct_image l slots) - lenN (mb_buf m)) with (header_size h + lenN (struct_image l slots)) by lia.
  assert (Hhl : header_size h = 8 \/ header_size h = 16) by (unfold header_size; destruct (hd_seid h); auto).
  rewrite N.add_0_r. destruct (N.ltb_spec 65535 (header_size h - 4 + lenN (struct_image l slots))) as [Hbig|Hsmall].
  - unfold set_message_length, hdr_common_size. dif X1; [lia|]. dif X2; [|lia]. eexists. reflexivity.
  - rewrite <- (hdr_bytes_image h 0). rewrite <- app_assoc. rewrite <- (before_len m).
    rewrite (set_len_hdr (before m) h _ (struct_image l slots) (header_size h + lenN (struct_image l slots))); [|reflexivity|unfold hdr_len; unfold header_size in *; destruct (hd_seid h); lia].
    eexists. split; [reflexivity|]. cbn [mb_buf mb_cap mb_l4]. split; [|split; reflexivity].
    rewrite <- (hdr_bytes_image h (lenN (struct_image l slots))).
    replace (header_size h + lenN (struct_image l slots) - 4) with (header_size h - 4 + lenN (struct_image l slots)) by lia. reflexivity.
Qed.

Theorem message_untabled m h slots : (forall l, ~ In (hd_type h, l) s_messages) -> lenN (mb_buf m) + header_size h <= mb_cap m ->
  exists m', msg_encode m h slots = MErr m' (match hd_prio h, hd_seid h with Some _, None => EINVAL | _, _ => ENOTSUP end).
Proof.
  intros Hn Hc. unfold msg_encode. rewrite before_is. cbv zeta. unfold enc_pfcp_header. rewrite before_len.
  assert (Hsz : hdr_size (is_some (hd_seid h)) = header_size h) by (unfold header_size; destruct (hd_seid h); reflexivity). rewrite Hsz.
  destruct (N.ltb_spec (mb_cap m - lenN (mb_buf m)) (header_size h)); [lia|].
  assert (Ht : msg_table (hd_type h) = None).
  { destruct (msg_table (hd_type h)) eqn:E; [|reflexivity]. pose proof (proj1 (message_unknown _ Hn)) as M. exfalso.
    unfold msg_table in E. destruct (get_msg_coding (hd_type h)) as [ies|] eqn:G; [|discriminate].
    apply (Hn (map sh ies)). apply spec_tables. exists ies. split; [exact G|]. split; [reflexivity|]. clear -G.
    revert G. unfold get_msg_coding. intros G. repeat (match type of G with context [if ?b then _ else _] => destruct b; [injection G as <-; repeat constructor|] end). discriminate. }
  unfold encode_tlv. rewrite Ht. cbn [gtlvs_encode].
  destruct (hd_seid h), (hd_prio h); eexists; reflexivity.
Qed.
