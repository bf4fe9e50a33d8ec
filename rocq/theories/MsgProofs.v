From Verif Require Import Base BaseProofs GtlvModel GtlvSpec GtlvProofs DecEncModel DecEncSpec DecEncProofs DecOrdProofs
  DecCharProofs RtProofs OrdMandProofs EncShapeProofs WfProofs GtlvInst IesModel IesSpec IesProofs TablesModel MsgModel MsgSpec.

(* ---------------------------------------------------------------- tables *)

Definition tables_good (ies : list pcoding) : Prop :=
  all_tables table_ok (map ptab ies) /\ Forall (all_tags tag16) (map ptab ies).

Ltac tac_table :=
  split;
  [ repeat split; repeat constructor; try (apply distinct_dec; reflexivity);
    try (unfold small_table, seen_max; vm_compute; discriminate); vm_compute; discriminate
  | repeat constructor; unfold tag16; eexists; (split; [reflexivity|vm_compute; reflexivity]) ].

Lemma tables_are_good t ies : get_msg_coding t = Some ies -> tables_good ies.
Proof.
  unfold get_msg_coding. intros H.
  repeat (match type of H with context [if ?b then _ else _] => destruct b; [injection H as <-; clear; tac_table|] end).
  discriminate.
Qed.

Lemma pcoding_ind' (P : pcoding -> Prop) :
  (forall h k, P (PLeaf h k)) -> (forall h ies, Forall P ies -> P (PNest h ies)) -> forall p, P p.
Proof.
  intros HL HN. fix IH 1. intros [h k|h ies]; [apply HL|]. apply HN.
  induction ies as [|d ies IHi]; constructor; [apply IH|exact IHi].
Qed.

Lemma head_ptab p : head (ptab p) = phead p.
Proof. destruct p; reflexivity. Qed.

Lemma ptab_cfgs (P : cfg -> Prop) p : all_cfgs P (ptab p).
Proof.
  induction p as [h k|h ies IH] using pcoding_ind'; cbn; [exact I|]. split; [exact I|].
  apply fold_right_and_Forall, Forall_map. exact IH.
Qed.
Lemma tabs_cfgs (P : cfg -> Prop) ies : Forall (all_cfgs P) (map ptab ies).
Proof. apply Forall_map, Forall_forall. intros p _. apply ptab_cfgs. Qed.
Lemma ptab_leaves (P : leaf iev -> Prop) p : (forall k, P (leaf_of k)) -> all_leaves P (ptab p).
Proof.
  intros H. induction p as [h k|h ies IH] using pcoding_ind'; cbn; [apply H|].
  apply fold_right_and_Forall, Forall_map. exact IH.
Qed.
Lemma tabs_local ies : Forall (all_leaves (leaf_local NulTail)) (map ptab ies).
Proof. apply Forall_map, Forall_forall. intros p _. apply ptab_leaves, leaf_of_local_nul. Qed.
Lemma tabs_safe ies : Forall (all_leaves (leaf_safe NulTail)) (map ptab ies).
Proof. apply Forall_map, Forall_forall. intros p _. apply ptab_leaves, leaf_of_safe_nul. Qed.

Lemma t16_cfg_ok : cfg_ok t16l16v.
Proof. exact t16l16v_ok. Qed.

(* valid_val / wire_val on a nested table are valid_struct / wire_struct *)
Lemma valid_val_nest h ies slots : valid_val (PNest h ies) (VStruct slots) <-> valid_struct ies slots.
Proof.
  unfold valid_struct. cbn [valid_val]. revert slots. induction ies as [|d ies IH]; intros [|s slots].
  - split; [constructor|auto].
  - split; [intros []|intros H; inversion H].
  - split; [intros []|intros H; inversion H].
  - rewrite IH. split.
    + intros (H1 & H2 & H3). constructor; auto.
    + intros H. inversion H as [|? ? ? ? [H1 H2] H3]; subst. auto.
Qed.
Lemma wire_val_nest h ies slots bs : wire_val (PNest h ies) (VStruct slots) bs <-> wire_struct ies slots bs.
Proof.
  cbn [wire_val]. revert slots bs. induction ies as [|d ies IH]; intros [|s slots] bs; cbn [wire_struct]; reflexivity.
Qed.

Lemma valid_val_wf p : forall v, valid_val p v -> val_wf NulTail (ptab p) v.
Proof.
  induction p as [h k|h ies IH] using pcoding_ind'; intros [x|slots] H; try contradiction.
  - exact (ie_wf k x H).
  - apply valid_val_nest in H. cbn [ptab]. apply val_wf_nest. unfold valid_struct, struct_wf in *.
    induction H as [|p s ies slots [Hc Hs] H IHs]; [constructor|]. inversion IH as [|? ? Hp IH']; subst.
    constructor; [|apply IHs; exact IH']. rewrite head_ptab. split; [exact Hc|].
    eapply Forall_impl; [|exact Hs]. exact Hp.
Qed.
Lemma valid_struct_wf ies slots : valid_struct ies slots -> struct_wf NulTail (map ptab ies) slots.
Proof.
  intros H. induction H as [|p s ies slots [Hc Hs] H IH]; constructor; [|exact IH].
  rewrite head_ptab. split; [exact Hc|]. eapply Forall_impl; [|exact Hs]. intros v. apply valid_val_wf.
Qed.

Lemma wire_tlv_repr ti vb : tag16 ti -> lenN vb <= 65535 -> tlv_repr t16l16v ti vb (wire_tlv (ti_tag ti) vb).
Proof.
  intros (t & -> & Ht) Hl. exists (hdr_t16l16v (ti_of_tag t) (lenN vb)). split.
  - apply t16l16v_headers; [exists t; auto|exact Hl].
  - unfold wire_tlv, hdr_t16l16v. cbn [ti_tag ti_of_tag be_put app].
    rewrite (N.mod_small (t / 256)), (N.mod_small (lenN vb / 256)) by (apply N.div_lt_upper_bound; lia). reflexivity.
Qed.
Lemma wire_tlv_len t vb : lenN (wire_tlv t vb) = 4 + lenN vb.
Proof. unfold wire_tlv. rewrite !lenN_app, !be_put_lenN. change (N.of_nat 2) with 2. lia. Qed.

Definition wire_to_repr (p : pcoding) : Prop := forall v bs, valid_val p v -> wire_val p v bs -> lenN bs <= 65535 ->
  val_repr NulTail (ptab p) t16l16v v bs.

Lemma slots_wire_repr ies slots : Forall (all_tags tag16) (map ptab ies) -> Forall wire_to_repr ies ->
  valid_struct ies slots -> forall bs, wire_struct ies slots bs -> lenN bs <= 65535 ->
  struct_repr NulTail t16l16v (map ptab ies) slots bs.
Proof.
  intros Ht Hw H. unfold valid_struct in H. induction H as [|p s ies slots [Hc Hs] H IH]; intros bs Hb Hl.
  - exact Hb.
  - cbn [wire_struct] in Hb. destruct Hb as (vbs & b2 & Hf & -> & H2). rewrite lenN_app in Hl.
    cbn [map] in Ht. inversion Ht as [|? ? Ht1 Ht2]; subst. inversion Hw as [|? ? Hw1 Hw2]; subst.
    cbn [map struct_repr]. eexists _, _. split; [reflexivity|]. rewrite head_ptab. split; [exact Hc|].
    split; [|apply IH; try assumption; lia].
    assert (Ht0 : tag16 (h_ti (phead p))) by (rewrite <- head_ptab; apply all_tags_head; exact Ht1).
    exists (map (wire_tlv (ti_tag (h_ti (phead p)))) vbs). split; [|reflexivity].
    assert (Hl' : lenN (concat (map (wire_tlv (ti_tag (h_ti (phead p)))) vbs)) <= 65535) by lia.
    clear Hl H2 Hc IH. revert Hs. induction Hf as [|v vb s vbs Hv Hf IHf]; intros Hs; [constructor|].
    cbn [map concat] in Hl'. rewrite lenN_app, wire_tlv_len in Hl'. inversion Hs as [|? ? Hs1 Hs2]; subst.
    constructor; [|apply IHf; [lia|exact Hs2]]. exists vb. split; [apply Hw1; [exact Hs1|exact Hv|lia]|].
    apply wire_tlv_repr; [exact Ht0|lia].
Qed.
Lemma wire_val_repr p : all_tags tag16 (ptab p) -> wire_to_repr p.
Proof.
  induction p as [h k|h ies IH] using pcoding_ind'; intros Ht [x|slots] bs Hv Hb Hl; try contradiction.
  - cbn [ptab val_repr]. apply ie_repr_nul; [exact Hv|exact Hb].
  - apply valid_val_nest in Hv. apply wire_val_nest in Hb. cbn [ptab all_tags] in *. destruct Ht as [_ Ht].
    apply fold_right_and_Forall in Ht.
    pose proof (slots_wire_repr ies slots Ht) as HH.
    assert (Hw : Forall wire_to_repr ies).
    { rewrite Forall_forall in *. intros p Hp. apply IH; [exact Hp|]. apply Ht, in_map, Hp. }
    specialize (HH Hw Hv bs Hb Hl). clear -HH.
    cbn [val_repr]. revert slots bs HH. induction (map ptab ies) as [|d l IHl]; intros [|s slots] bs HH; cbn [struct_repr] in HH; try exact HH.
    destruct HH as (b1 & b2 & E & H1 & H2 & H3). exists b1, b2. repeat (split; [assumption|]). apply IHl. exact H3.
Qed.
Lemma wire_struct_repr ies slots bs : tables_good ies -> valid_struct ies slots -> wire_struct ies slots bs -> lenN bs <= 65535 ->
  struct_repr NulTail t16l16v (map ptab ies) slots bs.
Proof.
  intros [_ Ht] Hv Hb Hl. eapply slots_wire_repr; try eassumption.
  rewrite Forall_forall in *. intros p Hp. apply wire_val_repr, Ht, in_map, Hp.
Qed.

(* the wire form exists for every valid struct *)
Lemma wire_val_exists p : forall v, valid_val p v -> exists bs, wire_val p v bs.
Proof.
  assert (Hslot : forall p s, (forall v, valid_val p v -> exists bs, wire_val p v bs) -> Forall (valid_val p) s -> exists vbs, Forall2 (wire_val p) s vbs).
  { intros q s Hq H. induction H as [|v s Hv H (vbs & IH)]; [exists []; constructor|]. destruct (Hq v Hv) as (b & Hb). exists (b :: vbs). constructor; assumption. }
  induction p as [h k|h ies IH] using pcoding_ind'; intros [x|slots] Hv; try contradiction.
  - exact (wire_exists k x Hv).
  - apply valid_val_nest in Hv. enough (exists bs, wire_struct ies slots bs) as (bs & Hb) by (exists bs; apply wire_val_nest; exact Hb).
    unfold valid_struct in Hv. induction Hv as [|p s ies slots [Hc Hs] H IHs]; [exists []; reflexivity|].
    inversion IH as [|? ? Hp IH']; subst. destruct (IHs IH') as (b2 & H2). destruct (Hslot p s Hp Hs) as (vbs & Hf).
    cbn [wire_struct]. eexists _, vbs, b2. repeat split; eassumption.
Qed.
Lemma wire_struct_exists ies slots : valid_struct ies slots -> exists bs, wire_struct ies slots bs.
Proof.
  intros H. destruct (wire_val_exists (PNest (pM 0) ies) (VStruct slots)) as (bs & Hb); [apply valid_val_nest; exact H|].
  exists bs. apply wire_val_nest in Hb. exact Hb.
Qed.

(* ---------------------------------------------------------------- IE part of a message *)

Lemma encode_tlv_wire t ies slots bs buf cap : get_msg_coding t = Some ies -> valid_struct ies slots -> wire_struct ies slots bs ->
  lenN bs <= 65535 -> lenN buf + lenN bs <= cap -> encode_tlv cap buf t slots = EOk (buf ++ bs).
Proof.
  intros Ht Hv Hb Hl Hc. pose proof (tables_are_good _ _ Ht) as Hg. unfold encode_tlv, msg_table. rewrite Ht. cbn [option_map].
  eapply (gtlvs_repr_roundtrip NulTail t16l16v false _ slots bs buf cap [0]);
    [exact t16_cfg_ok|exact NulTail_closed|cbn; auto|apply tabs_local|apply tabs_cfgs|apply Hg| |exact Hc].
  apply wire_struct_repr; assumption.
Qed.
Lemma decode_tlv_wire t ies slots bs rest : get_msg_coding t = Some ies -> valid_struct ies slots -> wire_struct ies slots bs ->
  lenN bs <= 65535 -> In 0 rest -> decode_tlv t (bs ++ rest) (lenN bs) = Ok slots.
Proof.
  intros Ht Hv Hb Hl Hr. pose proof (tables_are_good _ _ Ht) as Hg. unfold decode_tlv, msg_table. rewrite Ht. cbn [option_map].
  eapply (gtlvs_repr_roundtrip NulTail t16l16v false _ slots bs [] (lenN bs) rest);
    [exact t16_cfg_ok|exact NulTail_closed|exact Hr|apply tabs_local|apply tabs_cfgs|apply Hg| |change (lenN (@nil N)) with 0; lia].
  apply wire_struct_repr; assumption.
Qed.
Lemma decode_tlv_safe t d rest : In 0 rest -> is_ub (decode_tlv t (d ++ rest) (lenN d)) = false.
Proof.
  intros Hr. unfold decode_tlv, msg_table. destruct (get_msg_coding t) as [ies|] eqn:Ht; cbn [option_map]; [|reflexivity].
  apply (gtlvs_decode_safe NulTail); [exact t16_cfg_ok|exact NulTail_closed|exact Hr|apply tabs_local|apply tabs_safe|apply tabs_cfgs|].
  destruct (tables_are_good _ _ Ht) as [[H1 H2] _]. split; [apply H1|].
  eapply Forall_impl; [|exact H2]. clear. intros d. induction d as [h l|h nc o ies IH] using coding_ind'; cbn; [trivial|].
  intros [H1 H2]. split; [apply H1|]. apply fold_right_and_Forall in H2. apply fold_right_and_Forall.
  rewrite Forall_forall in *. auto.
Qed.
Lemma decode_tlv_local t d rest rest' : In 0 rest -> In 0 rest' ->
  decode_tlv t (d ++ rest) (lenN d) = decode_tlv t (d ++ rest') (lenN d).
Proof.
  intros Hr Hr'. unfold decode_tlv, msg_table. destruct (get_msg_coding t) as [ies|] eqn:Ht; cbn [option_map]; [|reflexivity].
  apply (gtlvs_decode_local NulTail); [exact t16_cfg_ok|exact NulTail_closed|exact Hr|exact Hr'|apply tabs_local|apply tabs_cfgs].
Qed.

(* ---------------------------------------------------------------- header *)

Lemma wire_hdr_len h fo n : lenN (wire_hdr h fo n) = hdr_len h.
Proof.
  unfold wire_hdr, hdr_len. rewrite !lenN_app, !be_put_lenN, !lenN_cons. change (lenN (@nil N)) with 0.
  destruct (hd_seid h); rewrite ?be_put_lenN; change (N.of_nat 2) with 2; change (N.of_nat 3) with 3; change (N.of_nat 8) with 8;
    try change (lenN (@nil N)) with 0; lia.
Qed.
Lemma hdr_bytes_len h n : lenN (hdr_bytes h n) = hdr_len h.
Proof.
  unfold hdr_bytes, hdr_len. rewrite !lenN_app, !be_put_lenN, !lenN_cons. change (lenN (@nil N)) with 0.
  destruct (hd_seid h); rewrite ?lenN_app, ?be_put_lenN, ?lenN_cons; change (N.of_nat 2) with 2; change (N.of_nat 3) with 3; change (N.of_nat 8) with 8;
    change (lenN (@nil N)) with 0; lia.
Qed.
Lemma hdr_size_len h : hdr_size (is_some (hd_seid h)) = hdr_len h.
Proof. unfold hdr_size, hdr_len. destruct (hd_seid h); reflexivity. Qed.

Definition flags_byte (h : hdr) (fo : bool) : N :=
  32 * hd_version h + (if fo then 4 else 0) + match hd_prio h with None => 0 | Some _ => 2 end
  + match hd_seid h with None => 0 | Some _ => 1 end.

(* decoding the flags: sum over all 8 * 8 values *)
Lemma flags_decode v (fo p s : bool) : v < 8 ->
  let b := 32 * v + (if fo then 4 else 0) + (if p then 2 else 0) + (if s then 1 else 0) in
  flag b 1 = s /\ flag b 2 = p /\ b / 32 = v /\ N.lor b 4 = 32 * v + 4 + (if p then 2 else 0) + (if s then 1 else 0).
Proof.
  intros H. assert (Hv : In v [0;1;2;3;4;5;6;7]) by (cbn; lia).
  cbn in Hv. repeat (destruct Hv as [<-|Hv]; [destruct fo, p, s; vm_compute; repeat split; reflexivity|]). contradiction.
Qed.
Lemma flags_byte_decode h fo : hd_version h < 8 ->
  flag (flags_byte h fo) 1 = is_some (hd_seid h) /\ flag (flags_byte h fo) 2 = is_some (hd_prio h) /\ flags_byte h fo / 32 = hd_version h
  /\ N.lor (flags_byte h fo) 4 = flags_byte h true.
Proof.
  intros H. pose proof (flags_decode (hd_version h) fo (is_some (hd_prio h)) (is_some (hd_seid h)) H) as F.
  unfold flags_byte. destruct (hd_prio h), (hd_seid h), fo; exact F.
Qed.

Lemma wire_hdr_eq h fo n : wire_hdr h fo n = [flags_byte h fo; hd_type h] ++ be_put 2 (hdr_len h - 4 + n)
  ++ match hd_seid h with None => [] | Some s => be_put 8 s end
  ++ be_put 3 (hd_seq h) ++ [match hd_prio h with None => 0 | Some p => p end].
Proof. reflexivity. Qed.

Lemma rd_be_app_eq w x rest n : n = N.of_nat w -> x < 256 ^ n -> rd_be n (be_put w x ++ rest) = Ok x.
Proof.
  intros -> Hx. unfold rd_be. rewrite rdN_app' by (rewrite be_put_lenN; reflexivity). cbn. rewrite be_get_put by exact Hx. reflexivity.
Qed.

Lemma decode_header_wire h fo n rest data_len : valid_hdr h -> hdr_len h - 4 + n <= 65535 -> hdr_len h + n <= data_len ->
  decode_header (wire_hdr h fo n ++ rest) data_len = Ok (mkDh h (hdr_len h + n) (hdr_len h) n).
Proof.
  intros (Hver & Hty & Hseq & Hsp) Hn Hd.
  assert (Hhl : hdr_len h = 8 \/ hdr_len h = 16) by (unfold hdr_len; destruct (hd_seid h); auto).
  unfold decode_header, hdr_common_size.
  dif E0; [lia|]. dif E1; [lia|]. clear E0 E1.
  pose proof (flags_byte_decode h fo Hver) as (F1 & F2 & F3 & _).
  rewrite wire_hdr_eq. set (len2 := be_put 2 (hdr_len h - 4 + n)).
  set (tl := match hd_seid h with None => [] | Some s => be_put 8 s end ++ be_put 3 (hd_seq h) ++ [match hd_prio h with None => 0 | Some p => p end]).
  assert (Hl2 : lenN len2 = 2) by (unfold len2; rewrite be_put_lenN; reflexivity).
  set (mem := ([flags_byte h fo; hd_type h] ++ len2 ++ tl) ++ rest).
  assert (R : rdN 4 mem = Ok ([flags_byte h fo; hd_type h] ++ len2)).
  { unfold mem. rewrite <- !app_assoc. rewrite (app_assoc _ len2). apply rdN_app'. rewrite lenN_app, Hl2. reflexivity. }
  assert (D4 : dropN 4 mem = tl ++ rest).
  { unfold mem. rewrite <- !app_assoc. rewrite (app_assoc _ len2). apply dropN_app'. rewrite lenN_app, Hl2. reflexivity. }
  clearbody mem. rewrite R. cbn [bind]. cbn [nth app].
  change (dropN 2 (flags_byte h fo :: hd_type h :: len2)) with len2. rewrite F1, F2, F3, hdr_size_len.
  assert (HG : be_get len2 = hdr_len h - 4 + n) by (apply be_get_put; change (256 ^ N.of_nat 2) with 65536; lia).
  rewrite HG. clear HG R.
  replace (hdr_len h - 4 + n + 4) with (hdr_len h + n) by lia.
  dif E2; [lia|]. dif E3; [lia|]. clear E2 E3.
  replace ((hdr_len h + n + 2 ^ 32 - hdr_len h) mod 2 ^ 32) with n.
  2: { replace (hdr_len h + n + 2 ^ 32 - hdr_len h) with (n + 1 * 2 ^ 32) by lia. rewrite N.mod_add by lia. rewrite N.mod_small; [reflexivity|].
       change (2 ^ 32) with 4294967296. lia. }
  unfold tl in *. clear tl. destruct h as [ver ty prio seid seq]. cbn [hd_seid hd_prio hd_type hd_version hd_seq is_some] in *.
  destruct seid as [sd|]; cbn [negb].
  - destruct Hsp as [Hsd Hp]. rewrite <- !app_assoc in D4. rewrite D4.
    rewrite (rd_be_app_eq 8 sd _ 8 eq_refl Hsd). cbn [bind].
    change 12 with (4 + 8). rewrite <- (dropN_dropN 8 4). rewrite D4.
    rewrite (dropN_app' 8) by (rewrite be_put_lenN; reflexivity).
    rewrite (rd_be_app_eq 3 seq _ 3 eq_refl Hseq). cbn [bind].
    change 15 with (4 + (8 + 3)). rewrite <- (dropN_dropN (8 + 3) 4). rewrite D4.
    rewrite <- (dropN_dropN 3 8), (dropN_app' 8), (dropN_app' 3) by (rewrite be_put_lenN; reflexivity).
    assert (RB : forall x, rd_be 1 ([x] ++ rest) = Ok x).
    { intros x. unfold rd_be. rewrite rdN_app' by reflexivity. reflexivity. }
    rewrite RB. cbn [bind]. destruct prio as [p|]; cbn [is_some]; [rewrite (N.mod_small p) by exact Hp|]; reflexivity.
  - rewrite Hsp in *. cbn [is_some app] in *. rewrite <- !app_assoc in D4. rewrite D4.
    rewrite (rd_be_app_eq 3 seq _ 3 eq_refl Hseq). reflexivity.
Qed.

Lemma hdr_bytes_wire h len : valid_hdr h -> len <= 65535 -> hdr_len h - 4 <= len -> hdr_bytes h len = wire_hdr h false (len - (hdr_len h - 4)).
Proof.
  intros (Hver & Hty & Hseq & Hsp) Hn Hl. unfold hdr_bytes, wire_hdr, hdr_flags. rewrite !N.mod_small by assumption.
  replace (hdr_len h - 4 + (len - (hdr_len h - 4))) with len by lia. destruct h as [ver ty prio seid seq]. cbn in *.
  destruct seid as [sd|].
  - destruct Hsp as [Hsd Hp]. destruct prio as [p|]; [rewrite (N.mod_small p) by exact Hp|]; 
    match goal with |- ?a :: _ = ?b :: _ => replace a with b by (cbn [is_some]; lia) end; reflexivity.
  - rewrite Hsp. match goal with |- ?a :: _ = ?b :: _ => replace a with b by (cbn [is_some]; lia) end; reflexivity.
Qed.
