(* ShortProofs.v -- C98: encoding into a msgb of any size *)
From Verif Require Import Base BaseProofs GtlvModel GtlvSpec GtlvProofs DecEncModel DecEncSpec DecEncProofs EncShapeProofs EncAppendProofs WfProofs
  IesModel IesSpec IesProofs HelperProofs TablesModel MsgModel MsgSpec MsgProofs MsgEncProofs MsgFinalProofs AcceptSpec AcceptProofs ErrnoSpec PutSpec PutProofs.

(* ---------------------------------------------------------------- one value *)
Lemma apn_some room s b : apn_from_str room s = Some b -> lenN (name_octets s) <= room /\ b = name_octets s.
Proof.
  rewrite name_octets_is, apn_labels_len, lenN_nil. unfold apn_from_str. destruct (N.ltb_spec room (lenN s + 1)); [discriminate|].
  intros E. injection E as <-. split; [lia|reflexivity].
Qed.
(* only names depend on the room *)
Lemma enc_room k x : (exists s, x = IvStr s /\ k = KNetInst) \/ (exists s, x = IvNode (NodeFqdn s) /\ k = KNodeId) \/ forall r r', enc_of k r x = enc_of k r' x.
Proof.
  destruct k; cbn [enc_of]; try (right; right; intros; destruct x; reflexivity).
  - destruct x as [| [| | |] | | | | | | |]; eauto 6; right; right; intros; reflexivity.
  - destruct x; eauto 6; right; right; intros; reflexivity.
Qed.
Lemma ie_put_ok k room x bs : typed_ie k x -> enc_of k room x = (bs, None) -> writable x = true /\ bs = ie_written k x.
Proof.
  intros Ht E. destruct (enc_room k x) as [(s & -> & ->)|[(s & -> & ->)|H]].
  - cbn [enc_of enc_network_inst] in E. destruct (apn_from_str room s) as [b|] eqn:A; [|discriminate]. injection E as <-. apply apn_some in A. destruct A as [_ ->].
    split; reflexivity.
  - cbn [enc_of enc_node_id] in E. destruct (apn_from_str (room - 1) s) as [b|] eqn:A; [|discriminate]. injection E as <-. apply apn_some in A. destruct A as [_ ->].
    split; reflexivity.
  - rewrite (H room (lenN (ie_written k x))) in E. pose proof (ie_put k _ x Ht (N.le_refl _)) as P. destruct (writable x).
    + rewrite P in E. injection E as <-. split; reflexivity.
    + destruct P as (b & P & _). rewrite P in E. discriminate.
Qed.

(* ---------------------------------------------------------------- structs *)
Notation lastok4 := (lastok 4).
Definition backs (enc : cfg -> N -> list N -> val iev -> eres) (img : val iev -> list N) (err : val iev -> option errno) (v : val iev) : Prop :=
  forall cap buf b, enc t16l16v cap buf v = EOk b -> lenN b + 4 <= cap -> err v = None /\ b = buf ++ img v.
Lemma put_image ti t buf x cap : ti = ti_of_tag t -> t < 65536 -> exists p2 rc,
  put_update_tl t16l16v (mkPut ((buf ++ hdr_t16l16v ti 0) ++ x) cap (Some (ti, lenN buf, lenN buf + 4))) = (p2, rc)
  /\ (forall u, rc <> UB u) /\ pt_cap p2 = cap /\ pt_buf p2 = buf ++ ie_image t x.
Proof.
  intros Hti Ht. destruct t16l16v_fixed as (FL & FS & _). assert (Htag : tag16 ti) by (exists t; split; [exact Hti|exact Ht]).
  unfold put_update_tl. cbn [pt_cap pt_buf pt_last].
  replace (lenN ((buf ++ hdr_t16l16v ti 0) ++ x) - (lenN buf + 4)) with (lenN x) by (rewrite !lenN_app, FL; lia).
  replace (lenN buf + 4 - lenN buf) with 4 by lia. unfold ie_image. destruct (N.ltb_spec (lenN x) 65536).
  - rewrite (FS _ (lenN x) 4 Htag) by lia. do 2 eexists. split; [reflexivity|]. split; [discriminate|]. cbn [pt_cap pt_buf].
    split; [reflexivity|]. rewrite <- app_assoc, overwrite_mid by (rewrite !FL; reflexivity). rewrite Hti, hdr_image by lia. reflexivity.
  - destruct (t16l16v_store_cases 4 ti (lenN x)) as [(B & _)|[(_ & _ & E)|[(_ & B & _)|(_ & B & _)]]]; try lia.
    + rewrite Hti in B. cbn in B. lia.
    + rewrite E. do 2 eexists. split; [reflexivity|]. split; [discriminate|]. cbn [pt_cap pt_buf].
      split; [reflexivity|]. rewrite Hti, hdr_image by lia. rewrite <- app_assoc. reflexivity.
Qed.

Lemma enc_vals_back (e : eentry iev) img err t : h_ti (ee_h e) = ti_of_tag t -> t < 65536 -> mono_enc t16l16v (ee_enc e) ->
  forall vals i p p', Forall (backs (ee_enc e) img err) vals -> enc_vals t16l16v e p i vals = POk p' -> lastok4 p -> lenN (pt_buf p') + 4 <= pt_cap p ->
    first_of (errs (ee_h e) err i vals) = None /\ pt_buf p' = pt_buf p ++ concat (map (fun v => ie_image t (img v)) vals).
Proof.
  intros Hti Ht Hmo. pose proof t16l16v_fixed as HF. pose proof HF as (FL & FS & _).
  assert (Htag : tag16 (h_ti (ee_h e))) by (exists t; split; [exact Hti|exact Ht]).
  induction vals as [|v vals IH]; intros i p p' Hp H Hl Hc.
  - cbn in H. injection H as <-. cbn. rewrite app_nil_r. split; reflexivity.
  - inversion Hp as [|? ? Hv Hp']; subst. destruct (enc_vals_mono _ _ _ _ _ HF e Hmo _ _ _ _ Hl H) as (_ & Hm0 & _).
    cbn [enc_vals] in H. unfold put_tli, tailroom in H. rewrite (FS _ 0 _ Htag) in H by lia. rewrite FL in H. dif_in H E0; [lia|].
    fold (over (ee_h e) i) in H. cbn [errs first_of fold_right]. destruct (over (ee_h e) i); [discriminate|]. cbn [pt_buf pt_cap pt_last] in H.
    destruct (ee_enc e t16l16v (pt_cap p) (pt_buf p ++ hdr_t16l16v (h_ti (ee_h e)) 0) v) as [buf|buf er|u] eqn:E2; try discriminate.
    pose proof (Hmo _ _ _ _ E2) as Hmb. rewrite lenN_app, FL in Hmb.
    destruct (put_update_tl t16l16v (mkPut buf (pt_cap p) (Some (h_ti (ee_h e), lenN (pt_buf p), lenN (pt_buf p) + 4)))) as [p2 rc2] eqn:E3.
    assert (Hl1 : lastok4 (mkPut buf (pt_cap p) (Some (h_ti (ee_h e), lenN (pt_buf p), lenN (pt_buf p) + 4)))) by (unfold lastok; cbn; lia).
    destruct (put_update_mono _ _ _ _ _ HF _ _ _ E3 Hl1) as (Hl2 & Hm2 & Hc2). cbn [pt_buf pt_cap] in Hm2, Hc2.
    assert (H4 : enc_vals t16l16v e p2 (i + 1) vals = POk p') by (destruct rc2; [exact H|exact H|discriminate]).
    destruct (enc_vals_mono _ _ _ _ _ HF e Hmo _ _ _ _ Hl2 H4) as (_ & Hm4 & _).
    destruct (Hv _ _ _ E2 ltac:(lia)) as (Er & ->). rewrite Er.
    destruct (put_image (h_ti (ee_h e)) t (pt_buf p) (img v) (pt_cap p) Hti Ht) as (p3 & rc3 & E4 & _ & Hcap & Hbuf).
    rewrite E3 in E4. injection E4 as <- <-. rewrite <- Hcap in Hc.
    destruct (IH _ _ _ Hp' H4 Hl2 Hc) as [I1 I2]. split; [exact I1|]. rewrite I2, Hbuf. cbn [map concat]. rewrite <- app_assoc. reflexivity.
Qed.

Definition same_cfg (d : coding iev) : Prop := all_cfgs (fun x => x = t16l16v) d.
Lemma ptab_cfg p : same_cfg (ptab p).
Proof.
  induction p as [h k|h ies IH] using pcoding_ind'; cbn [ptab]; [exact I|]. unfold same_cfg. cbn [all_cfgs]. split; [exact I|].
  apply fold_right_and_Forall, Forall_map. exact IH.
Qed.
Lemma ptab_mono p : mono_enc t16l16v (enc_coding (ptab p)).
Proof. exact (enc_coding_mono t16l16v 4 65535 hdr_t16l16v tag16 t16l16v_fixed _ (ptab_cfg p)). Qed.

Definition backs_at (p : pcoding) : Prop := all_std p -> all_tags tag16 (ptab p) -> forall v, typed_val (sh p) v ->
  backs (enc_coding (ptab p)) (val_image (sh p)) (val_error (sh p)) v.
Lemma slots_back ies : Forall backs_at ies -> Forall all_std ies -> Forall (all_tags tag16) (map ptab ies) ->
  forall slots p p', typed_struct (map sh ies) slots -> enc_entries t16l16v (map eentry_of (map ptab ies)) p slots = POk p' -> lastok4 p ->
    lenN (pt_buf p') + 4 <= pt_cap p ->
    struct_error (map sh ies) slots = None /\ pt_buf p' = pt_buf p ++ struct_image (map sh ies) slots.
Proof.
  intros HP Hs Ht. pose proof t16l16v_fixed as HF. unfold struct_error, struct_image, typed_struct.
  induction ies as [|q ies IH]; intros [|s slots] p p' Hty H Hl Hc; try contradiction.
  - cbn in H. injection H as <-. cbn. rewrite app_nil_r. auto.
  - inversion HP as [|? ? Hq HP']; subst. inversion Hs as [|? ? Hsq Hs']; subst. inversion Ht as [|? ? Htq Ht']; subst.
    cbn [map typed_slots] in Hty. destruct Hty as (Ho & Hv & Hty). cbn [map slots_image slots_error].
    rewrite (app_assoc (map _ _) (map _ _)), first_of_app.
    pose proof (all_std_head _ Hsq) as Hh. destruct (slot_errs q s Hh Ho) as [Ht1 Ht2]. rewrite <- Ht2. clear Ht2.
    assert (Eh : ee_h (eentry_of (ptab q)) = phead q) by (exact (head_ptab q)). cbn [map enc_entries] in H. rewrite Eh, Ht1 in H.
    assert (Htag : exists t, h_ti (phead q) = ti_of_tag t /\ t < 65536).
    { pose proof (all_tags_head _ _ Htq) as (t & A & B). rewrite head_ptab in A. exists t. auto. }
    destruct Htag as (t & Hti & Htl).
    assert (Hvs : Forall (backs (enc_coding (ptab q)) (val_image (sh q)) (val_error (sh q))) s).
    { rewrite Forall_forall in *. intros v Hin. apply Hq; auto. }
    assert (Et : iei_of (sh q) = t) by (rewrite sh_iei, Hti; reflexivity). rewrite Et in *.
    destruct (enc_vals t16l16v (eentry_of (ptab q)) p 0 s) as [p1|p1 er|u] eqn:E1; try discriminate.
    pose proof (enc_vals_back (eentry_of (ptab q)) (val_image (sh q)) (val_error (sh q)) t) as HE. rewrite Eh in HE.
    destruct (enc_vals_mono _ _ _ _ _ HF (eentry_of (ptab q)) (ptab_mono q) _ _ _ _ Hl E1) as (Hl1 & _ & Hc1).
    assert (Hmono : Forall (fun e => mono_enc t16l16v (ee_enc e)) (map (@eentry_of iev) (map ptab ies))).
    { apply Forall_map, Forall_map, Forall_forall. intros x _. apply ptab_mono. }
    destruct (enc_entries_mono _ _ _ _ _ HF _ Hmono _ _ _ Hl1 H) as (_ & Hm2 & Hc2).
    destruct (HE Hti Htl (ptab_mono q) s 0 p p1 Hvs E1 Hl ltac:(lia)) as [H1 H2]. rewrite H1.
    destruct (IH HP' Hs' Ht' slots p1 p' Hty H Hl1 ltac:(lia)) as [I1 I2]. cbn [first_of fold_right]. rewrite I1. split; [reflexivity|].
    rewrite I2, H2, <- app_assoc. reflexivity.
Qed.
Lemma backs_all p : backs_at p.
Proof.
  induction p as [h k|h ies IH] using pcoding_ind'; intros Hs Ht v Hv cap buf b H Hc.
  - destruct v as [x|slots]; [|contradiction]. cbn [sh typed_val val_image val_error ptab enc_coding leaf_of lf_enc] in *.
    destruct (enc_of k (tailroom buf cap) x) as [bs [er|]] eqn:E; dif_in H X; try discriminate. injection H as <-.
    destruct (ie_put_ok k _ x bs Hv E) as [-> ->]. split; reflexivity.
  - destruct v as [x|slots]; [contradiction|]. cbn [sh typed_val val_image val_error ptab enc_coding] in *.
    destruct Hs as [_ Hs]. apply fold_right_and_Forall in Hs. cbn [all_tags] in Ht. destruct Ht as [_ Ht]. apply fold_right_and_Forall in Ht.
    change (map (fun d => mkEEntry (head d) (enc_coding d)) (map ptab ies)) with (map (@eentry_of iev) (map ptab ies)) in H.
    unfold enc_list in H. destruct (enc_entries t16l16v (map eentry_of (map ptab ies)) (mkPut buf cap None) slots) as [p'|p' er|u] eqn:E; try discriminate.
    injection H as <-. exact (slots_back ies IH Hs Ht slots (mkPut buf cap None) p' Hv E I Hc).
Qed.
Theorem encode_back t l slots cap buf b : In (t, l) s_messages -> typed_struct l slots -> encode_tlv cap buf t slots = EOk b -> lenN b + 4 <= cap ->
  struct_error l slots = None /\ b = buf ++ struct_image l slots.
Proof.
  intros Hin Hty H Hc. apply spec_tables in Hin. destruct Hin as (ies & Et & -> & Hs).
  destruct (tables_are_good _ _ Et) as [_ Ht]. unfold encode_tlv, msg_table in H. rewrite Et in H. cbn [option_map gtlvs_encode] in H.
  unfold enc_list in H. destruct (enc_entries t16l16v (map eentry_of (map ptab ies)) (mkPut buf cap None) slots) as [p'|p' er|u] eqn:E; try discriminate.
  injection H as <-. exact (slots_back ies ltac:(apply Forall_forall; intros; apply backs_all) Hs Ht slots (mkPut buf cap None) p' Hty E I Hc).
Qed.

(* ---------------------------------------------------------------- the only undefined behaviour is the msgb's abort *)
Definition aborts (enc : cfg -> N -> list N -> val iev -> eres) (v : val iev) : Prop := forall cap buf u, enc t16l16v cap buf v = EUB u -> u = MsgbAbort.
Lemma enc_vals_abort (e : eentry iev) : forall vals i p u, Forall (aborts (ee_enc e)) vals -> enc_vals t16l16v e p i vals = PUB u -> u = MsgbAbort.
Proof.
  destruct t16l16v_fixed as (_ & _ & _ & FU).
  induction vals as [|v vals IH]; intros i p u Hp H; [discriminate|]. inversion Hp as [|? ? Hv Hp']; subst. cbn [enc_vals] in H.
  destruct (put_tli t16l16v p (h_ti (ee_h e)) 0) as [p1 rc] eqn:E1.
  assert (HU : forall x, rc = UB x -> x = MsgbAbort).
  { intros x ->. unfold put_tli in E1. destruct (cfg_store t16l16v _ _ _) as [h|er|x'] eqn:Es; [dif_in E1 X|..]; try congruence. destruct (FU _ _ _ _ Es). }
  assert (HB : forall u', (if over (ee_h e) i then PErr p1 ENOTSUP else
     match ee_enc e t16l16v (pt_cap p1) (pt_buf p1) v with
      | EUB u => PUB u
      | EErr buf er => PErr (mkPut buf (pt_cap p1) (pt_last p1)) er
      | EOk buf =>
        match put_update_tl t16l16v (mkPut buf (pt_cap p1) (pt_last p1)) with
        | (_, UB u) => PUB u
        | (p2, _) => enc_vals t16l16v e p2 (i + 1) vals
        end
      end) = PUB u' -> u' = MsgbAbort).
  { clear H u. intros u H. destruct (over (ee_h e) i); [discriminate|].
    destruct (ee_enc e t16l16v (pt_cap p1) (pt_buf p1) v) as [buf|buf er|x] eqn:E2; [|discriminate|injection H as <-; exact (Hv _ _ _ E2)].
    destruct (put_update_tl t16l16v (mkPut buf (pt_cap p1) (pt_last p1))) as [p2 rc2] eqn:E3.
    destruct rc2 as [y|er|y]; [exact (IH _ _ _ Hp' H)|exact (IH _ _ _ Hp' H)|]. exfalso. unfold put_update_tl in E3. cbn [pt_last pt_buf pt_cap] in E3.
    destruct (pt_last p1) as [[[ti tl] w]|]; [|discriminate]. destruct (cfg_store t16l16v _ _ _) as [h|er|x'] eqn:Es; try discriminate. exact (FU _ _ _ _ Es). }
  destruct rc as [x|er|x]; [exact (HB u H)|exact (HB u H)|]. injection H as <-. exact (HU x eq_refl).
Qed.
Lemma slots_abort ies : Forall (fun q => forall v, typed_val (sh q) v -> aborts (enc_coding (ptab q)) v) ies ->
  forall slots p u, typed_struct (map sh ies) slots -> enc_entries t16l16v (map eentry_of (map ptab ies)) p slots = PUB u -> u = MsgbAbort.
Proof.
  intros HP. unfold typed_struct. induction HP as [|q ies Hq _ IH]; intros [|s slots] p u Hty H; try contradiction; try discriminate.
  cbn [map typed_slots] in Hty. destruct Hty as (_ & Hv & Hty). cbn [map enc_entries] in H.
  destruct (enc_vals t16l16v (eentry_of (ptab q)) p 0 _) as [p1|p1 er|x] eqn:E1; [exact (IH _ _ _ Hty H)|discriminate|].
  injection H as <-. apply enc_vals_abort in E1; [exact E1|]. apply Forall_forall. intros v Hin. apply Hq. rewrite Forall_forall in Hv. apply Hv.
  unfold to_encode in Hin. destruct (h_multi _); [exact Hin|]. destruct s as [|w s]; [destruct Hin|]. left. destruct Hin as [E|[]]. exact E.
Qed.
Lemma aborts_all p : forall v, typed_val (sh p) v -> aborts (enc_coding (ptab p)) v.
Proof.
  induction p as [h k|h ies IH] using pcoding_ind'; intros v Hv cap buf u H.
  - destruct v as [x|slots]; [|contradiction]. cbn [ptab enc_coding leaf_of lf_enc] in H.
    destruct (enc_of k (tailroom buf cap) x) as [bs [er|]]; dif_in H X; try discriminate; congruence.
  - destruct v as [x|slots]; [contradiction|]. cbn [sh typed_val ptab enc_coding] in *.
    change (map (fun d => mkEEntry (head d) (enc_coding d)) (map ptab ies)) with (map (@eentry_of iev) (map ptab ies)) in H.
    unfold enc_list in H. destruct (enc_entries t16l16v (map eentry_of (map ptab ies)) (mkPut buf cap None) slots) as [p'|p' er|x] eqn:E; try discriminate.
    injection H as <-. exact (slots_abort ies IH slots _ _ Hv E).
Qed.
Theorem encode_abort t l slots cap buf u : In (t, l) s_messages -> typed_struct l slots -> encode_tlv cap buf t slots = EUB u -> u = MsgbAbort.
Proof.
  intros Hin Hty H. apply spec_tables in Hin. destruct Hin as (ies & Et & -> & Hs). unfold encode_tlv, msg_table in H. rewrite Et in H.
  cbn [option_map gtlvs_encode] in H. unfold enc_list in H.
  destruct (enc_entries t16l16v (map eentry_of (map ptab ies)) (mkPut buf cap None) slots) as [p'|p' er|x] eqn:E; try discriminate. injection H as <-.
  exact (slots_abort ies ltac:(apply Forall_forall; intros; apply aborts_all; assumption) slots _ _ Hty E).
Qed.

(* ---------------------------------------------------------------- messages *)
Definition total (m : msgb) (h : hdr) (l : list ie) (slots : list (slot iev)) : N := lenN (mb_buf m) + header_size h + lenN (struct_image l slots).
Lemma set_length_len buf ofs n b : ofs + n = lenN buf -> set_message_length buf ofs n = Ok b -> lenN b = lenN buf.
Proof.
  unfold set_message_length. intros Hl H. change hdr_common_size with 4 in H. dif_in H X1; [discriminate|]. dif_in H X2; [discriminate|].
  assert (E : forall x y : list N, Ok x = Ok y -> y = x) by (intros x y E; congruence). apply E in H. subst b. apply overwrite_lenN. rewrite be_put_lenN. lia.
Qed.
Theorem encode_any_room m h l slots : In (hd_type h, l) s_messages -> typed_struct l slots -> lenN (mb_buf m) <= mb_cap m ->
  match msg_encode m h slots with
  | MUB u => u = MsgbAbort /\ mb_cap m < total m h l slots
  | MErr m' _ => lenN (mb_buf m') <= mb_cap m
  | MOk m' => lenN (mb_buf m') <= mb_cap m /\
      (lenN (mb_buf m') + 4 <= mb_cap m -> message_refusal h l slots = None /\
         mb_buf m' = before m ++ header_image h (lenN (struct_image l slots)) ++ struct_image l slots)
  end.
Proof.
  intros Hin Hty Hb.
  assert (HX : mb_cap m < total m h l slots \/ total m h l slots <= mb_cap m) by lia.
  assert (HF : total m h l slots <= mb_cap m -> forall u, msg_encode m h slots <> MUB u).
  { intros Hc u E. pose proof (message_exact m h l slots Hin Hty Hc) as HM. destruct (message_refusal h l slots) as [e|].
    - destruct HM as (m' & HM). rewrite HM in E. discriminate.
    - destruct HM as (m' & HM & _). rewrite HM in E. discriminate. }
  assert (HU : forall u, msg_encode m h slots = MUB u -> u = MsgbAbort -> u = MsgbAbort /\ mb_cap m < total m h l slots).
  { intros u E1 E2. split; [exact E2|]. destruct HX as [HX|HX]; [exact HX|]. destruct (HF HX u E1). }
  assert (HW : match msg_encode m h slots with MUB u => u = MsgbAbort | MErr m' _ => lenN (mb_buf m') <= mb_cap m
               | MOk m' => lenN (mb_buf m') <= mb_cap m /\ (lenN (mb_buf m') + 4 <= mb_cap m -> total m h l slots <= mb_cap m) end).
  { clear HX HF HU. unfold msg_encode. rewrite before_is. cbv zeta. unfold enc_pfcp_header. rewrite before_len.
    assert (Hsz : hdr_size (is_some (hd_seid h)) = header_size h) by (unfold header_size; destruct (hd_seid h); reflexivity). rewrite Hsz.
    destruct (N.ltb_spec (mb_cap m - lenN (mb_buf m)) (header_size h)); [reflexivity|].
    change hdr_common_size with 4. replace (header_size h - 4) with (header_size h - 4 + 0) by lia. rewrite hdr_bytes_image.
    assert (Hl1 : lenN (before m ++ header_image h 0) = lenN (mb_buf m) + header_size h) by (rewrite lenN_app, before_len, header_image_len; reflexivity).
    assert (HT : match (match encode_tlv (mb_cap m) (before m ++ header_image h 0) (hd_type h) slots with
        | EUB u => MUB u
        | EErr buf e => MErr (mkMsgb buf (mb_cap m) (Some (match mb_l3 m with Some x => x | None => lenN (mb_buf m) end)) (Some (lenN (mb_buf m)))) e
        | EOk buf2 => match set_message_length buf2 (lenN (mb_buf m)) (lenN buf2 - lenN (mb_buf m)) with
            | Ok buf3 => MOk (mkMsgb buf3 (mb_cap m) (Some (match mb_l3 m with Some x => x | None => lenN (mb_buf m) end)) (Some (lenN (mb_buf m))))
            | Err e => MErr (mkMsgb buf2 (mb_cap m) (Some (match mb_l3 m with Some x => x | None => lenN (mb_buf m) end)) (Some (lenN (mb_buf m)))) e
            | UB u => MUB u
            end end) with MUB u => u = MsgbAbort | MErr m' _ => lenN (mb_buf m') <= mb_cap m
               | MOk m' => lenN (mb_buf m') <= mb_cap m /\ (lenN (mb_buf m') + 4 <= mb_cap m -> total m h l slots <= mb_cap m) end).
    { pose proof (encode_abort (hd_type h) l slots (mb_cap m) (before m ++ header_image h 0)) as HA.
      pose proof (encode_back (hd_type h) l slots (mb_cap m) (before m ++ header_image h 0)) as HB.
      assert (HE : eok (before m ++ header_image h 0) (mb_cap m) (encode_tlv (mb_cap m) (before m ++ header_image h 0) (hd_type h) slots)).
      { pose proof Hin as Hin2. apply spec_tables in Hin2. destruct Hin2 as (ies & Et & _ & _). unfold encode_tlv, msg_table. rewrite Et. cbn [option_map].
        apply (gtlvs_encode_app t16l16v 4 65535 hdr_t16l16v tag16 t16l16v_fixed); [|lia]. apply Forall_map, Forall_forall. intros x _. apply ptab_cfg. }
      destruct (encode_tlv (mb_cap m) (before m ++ header_image h 0) (hd_type h) slots) as [b|b e|u]; cbn [eok] in HE.
      - destruct HE as ((x & ->) & HE).
        destruct (set_message_length _ _ _) as [b3|e|u] eqn:Es; cbn [mb_buf].
        + apply set_length_len in Es; [|rewrite lenN_app; lia]. rewrite Es. split; [exact HE|]. intros H4.
          destruct (HB _ Hin Hty eq_refl H4) as [_ Hx]. apply app_inv_head in Hx. subst x. unfold total. rewrite lenN_app, Hl1 in HE. exact HE.
        + exact HE.
        + unfold set_message_length in Es. dif_in Es X1; [discriminate|]. dif_in Es X2; discriminate.
      - cbn [mb_buf]. exact (proj2 HE).
      - exact (HA u Hin Hty eq_refl). }
    destruct (hd_seid h), (hd_prio h); try exact HT. cbn [mb_buf]. rewrite Hl1. lia. }
  destruct (msg_encode m h slots) as [m'|m' e|u] eqn:E.
  - destruct HW as [HW1 HW2]. split; [exact HW1|]. intros H4. specialize (HW2 H4). pose proof (message_exact m h l slots Hin Hty HW2) as HM.
    destruct (message_refusal h l slots) as [e|]; [destruct HM as (m2 & HM); congruence|]. split; [reflexivity|].
    destruct HM as (m2 & HM & HM2 & _). rewrite E in HM. injection HM as ->. exact HM2.
  - exact HW.
  - exact (HU u eq_refl HW).
Qed.
(* success with room to spare: exactly for messages that are not refused and leave that much *)
Theorem encode_spare m h l slots : In (hd_type h, l) s_messages -> typed_struct l slots -> lenN (mb_buf m) <= mb_cap m ->
  (exists m', msg_encode m h slots = MOk m' /\ lenN (mb_buf m') + 4 <= mb_cap m) <->
  message_refusal h l slots = None /\ total m h l slots + 4 <= mb_cap m.
Proof.
  intros Hin Hty Hb. split.
  - intros (m' & E & H4). pose proof (encode_any_room m h l slots Hin Hty Hb) as H. rewrite E in H. destruct H as [_ H]. destruct (H H4) as [H1 H2].
    split; [exact H1|]. rewrite H2, !lenN_app, before_len, header_image_len in H4. unfold total. lia.
  - intros [E H4]. pose proof (message_exact m h l slots Hin Hty) as H. rewrite E in H. destruct H as (m' & H1 & H2 & _); [unfold total in H4; lia|].
    exists m'. split; [exact H1|]. rewrite H2, !lenN_app, before_len, header_image_len. unfold total in H4. lia.
Qed.
