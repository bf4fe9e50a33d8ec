(* IeMsgProofs.v -- whole messages with the IE functions of pfcp_ies_custom.c on struct memory. For C108. *)
From Coq Require Import String Ascii.
From Verif Require Import Base BaseProofs GtlvModel DecEncModel DecEncProofs CStr IesModel IesSpec IesProofs PutSpec PutProofs TablesModel MsgModel MsgSpec MsgProofs StrModel StrSpec MemModel MemSpec MemProofs MemEncProofs MemTest GenModel GenSpec GenProofs GenPfcp GenPfcpProofs PfcpMem PfcpMemProofs PfcpMemFinal PropertiesStr PropertiesPut IeMemModel IeMemSpec IeMemProofs IeMemStr IeMemDec PropertiesIeMem IeEncModel IeEncSpec IeEncProofs PropertiesIeEnc LeafMapProofs IeMsgModel IeMsgSpec.
Local Open Scope string_scope.
Local Open Scope N_scope.
Local Open Scope list_scope.

Lemma has_nul_in l : has_nul l = true -> In 0 l.
Proof. unfold has_nul. intros H. apply existsb_exists in H. destruct H as (x & Hx & E). apply N.eqb_eq in E. subst x. exact Hx. Qed.
Lemma in_has_nul l : In 0 l -> has_nul l = true.
Proof. intros H. apply existsb_exists. exists 0. split; [exact H|reflexivity]. Qed.
Lemma ended_iff te be k mem : ended te be k mem = true <-> strings_end te be k mem.
Proof.
  destruct k; cbn [ended strings_end]; try (split; auto; fail).
  - destruct (N.eqb_spec (v_num te be "enum osmo_pfcp_node_id_type" (fo te NODE_ID "type") mem) 2) as [E|E]; cbn [negb orb].
    + split; [intros H _; apply has_nul_in, H|intros H; apply in_has_nul, H, E].
    + split; [intros _ X; contradiction|reflexivity].
  - split; [apply has_nul_in|apply in_has_nul].
  - split; [apply has_nul_in|apply in_has_nul].
Qed.

(* encoders and decoders on [option iev] *)
Definition over (room : N) : enc_out := (repeat 0 (N.to_nat (room + 1)), None).
Definition fit (room : N) (o : enc_out) : enc_out := if lenN (fst o) <=? room then o else over room.
Definition o_leaf (f : fns) : leaf (option iev) :=
  mkLeaf (option_map (fun d m len => x <- d m len ;; Ok (Some x)) (lf_dec (pfcp_leaf f)))
    (Some (fun room o => match o with Some v => fit room (enc_of (kind_of f) room v) | None => over room end)).
Lemma over_len room : room < lenN (fst (over room)).
Proof. unfold over. cbn [fst]. unfold lenN. rewrite repeat_length. lia. Qed.
Lemma o_enc f : match lf_enc (pfcp_leaf f), lf_enc (o_leaf f) with
  | Some g, Some g' => forall room x, g' room (Some x) = g room x \/ (room < lenN (fst (g room x)) /\ room < lenN (fst (g' room (Some x))))
  | None, None => True | _, _ => False end.
Proof.
  unfold pfcp_leaf, leaf_of, o_leaf. cbn [lf_enc]. intros room x. unfold fit. destruct (N.leb_spec (lenN (fst (enc_of (kind_of f) room x))) room); [left; reflexivity|]. right. split; [assumption|]. apply over_len.
Qed.

Section Host.
Variables (te : tenv) (r : generated) (be : bool) (sa_img : sa -> list N) (sa_rd : list N -> sa) (T : texts).
Hypothesis HA : ie_abi te sa_img sa_rd.
Hypothesis HE : pfcp_env te.
Hypothesis HG : gen_and_compile pfcp_cfg te pfcp_ce pfcp_msgs = Some r.
Hypothesis HU : gen_union_size pfcp_cfg r < 2 ^ 32.
Notation usz := (gen_union_size pfcp_cfg r).
Notation lk := (cc_lk te be sa_img sa_rd T).
Notation old_lk := (c_lk te be sa_img sa_rd T).
Let HH : pfcp_host te r old_lk (c_ld te be sa_rd) T := C104_host te r be sa_img sa_rd T HA HE HG HU.

Lemma cc_layout t ies : defs_get (gr_defs r) t = Some ies -> layout_ok lk usz ies.
Proof. intros H. exact (host_layout te r old_lk (c_ld te be sa_rd) T HH t ies H). Qed.
Lemma cc_enc_ok f : enc_ok lk o_leaf (ended_val te be sa_rd) f.
Proof.
  unfold enc_ok, o_leaf, cc_lk, cc_leaf. cbn [lf_enc ml_enc ml_size]. intros room b HL. unfold c_enc_out, ended_val. destruct (ended te be (kind_of f) b) eqn:E.
  - apply ended_iff in E. pose proof (C106_encode te be sa_img sa_rd (kind_of f) room b HA HL E) as G. unfold fit. destruct (enc_of (kind_of f) room (c_val te be sa_rd (kind_of f) b)) as [bs e]. cbn [fst].
    destruct (lenN bs <=? room); [rewrite G; destruct e; reflexivity|]. destruct G as (out & ->). reflexivity.
  - assert (NE : ~ strings_end te be (kind_of f) b) by (intros X; apply ended_iff in X; congruence).
    destruct (unended_any te be sa_rd (abi_laid _ _ _ HA) (proj1 (proj2 HA)) room b (kind_of f) HL NE) as (out & u & ->). reflexivity.
Qed.
Lemma cc_str_ok f : str_ok lk (fun f => Some (ie_to_str T (kind_of f))) (c_ld te be sa_rd) f.
Proof. unfold str_ok, cc_lk, cc_leaf. cbn [ml_str ml_size]. intros b HL buf n. exact (C107_value te be sa_img sa_rd T (kind_of f) b buf n HA HL). Qed.
Lemma cc_dec_ok f : dec_ok lk o_leaf (ended_val te be sa_rd) f.
Proof.
  unfold dec_ok, o_leaf, pfcp_leaf, leaf_of, cc_lk, cc_leaf. cbn [lf_dec option_map ml_dec ml_size]. intros old m len HL HZ HM.
  pose proof (C104_decode te be sa_img sa_rd (kind_of f) m len old HA HM HL HZ) as G. destruct (dec_of (kind_of f) m len) as [v|e|u] eqn:D; cbn [bind].
  - destruct G as (new & -> & L & V). split; [exact L|]. split; [reflexivity|]. unfold ended_val. rewrite (proj2 (ended_iff te be (kind_of f) new) (decoded_ends te be sa_img sa_rd (kind_of f) m len v new HA L D V)), V. reflexivity.
  - destruct G as (new & -> & L). auto.
  - destruct (c_dec _ _ _ _ _ _ _). exact Logic.I.
Qed.

Theorem cc_decode t d rest dm : bytes_ok (d ++ rest) -> In 0 rest -> lenN dm = usz -> Forall (fun b => b = 0) dm ->
  match decode_tlv t (d ++ rest) (lenN d) with
  | Ok slots => exists dm', gen_ies_decode pfcp_cfg r lk be t16l16v false t (d ++ rest) (lenN d) dm = (dm', Ok tt)
      /\ union_holds r lk (c_ld te be sa_rd) be t dm' slots /\ union_ends te be sa_rd r lk t dm' slots
  | Err e => exists dm', gen_ies_decode pfcp_cfg r lk be t16l16v false t (d ++ rest) (lenN d) dm = (dm', Err e) /\ lenN dm' = usz
  | UB _ => False
  end.
Proof.
  intros HB HR HL HZ. pose proof (pfcp_decode_mem te r old_lk (c_ld te be sa_rd) T be HH t d rest dm HB HR HL HZ) as G.
  change (gen_ies_decode pfcp_cfg r old_lk be) with (gen_ies_decode pfcp_cfg r lk be) in G.
  destruct (decode_tlv t (d ++ rest) (lenN d)) as [slots|e|u] eqn:E; [|exact G|exact G]. destruct G as (dm' & E1 & H). exists dm'. split; [exact E1|]. split; [exact H|].
  unfold union_ends. destruct H as [H0 H]. split; [exact H0|]. unfold decode_tlv in E. rewrite <- (host_table te r old_lk (c_ld te be sa_rd) T HH t) in E. unfold gen_ies_decode in E1. pose proof (cc_layout t) as HLy.
  destruct (defs_get (gr_defs r) t) as [ies|]; [|destruct H]. cbn [option_map] in E. specialize (HLy ies eq_refl).
  pose proof (decode_refines lk o_leaf (ended_val te be sa_rd) be usz HU cc_dec_ok usz ies t16l16v false 0 (d ++ rest) (lenN d) dm HB HLy HL (N.le_refl _) (zero_bytes_at r dm HL HZ)) as G.
  rewrite (decode_map Some pfcp_leaf o_leaf (fun _ => eq_refl)), E in G. cbn [bind] in G. destruct G as (dm2 & E2 & _ & HS). rewrite E1 in E2. injection E2 as <-.
  exact (strict_map Some lk (c_ld te be sa_rd) (ended_val te be sa_rd) be ies 0 dm' slots H HS).
Qed.
Theorem cc_encode t dm slots cap buf : union_ends te be sa_rd r lk t dm slots -> gen_ies_encode pfcp_cfg r lk be dm t t16l16v cap buf = encode_tlv cap buf t slots.
Proof.
  intros [HL HS]. unfold gen_ies_encode, encode_tlv. rewrite <- (host_table te r old_lk (c_ld te be sa_rd) T HH t). pose proof (cc_layout t) as HLy.
  destruct (defs_get (gr_defs r) t) as [ies|]; [|destruct HS]. cbn [option_map]. specialize (HLy ies eq_refl).
  rewrite (encode_refines lk (ended_val te be sa_rd) be usz HU dm HL o_leaf cc_enc_ok usz ies t16l16v cap 0 buf _ HLy (N.le_refl _) HS).
  exact (encode_map Some pfcp_leaf o_leaf o_enc t16l16v cap ies buf slots).
Qed.
Theorem cc_print t dm slots b n : union_holds r lk (c_ld te be sa_rd) be t dm slots -> gen_ies_to_str pfcp_cfg r lk be dm t (tx_iei T) b n = ies_to_str T t slots b n.
Proof.
  intros [HL HS]. unfold gen_ies_to_str, ies_to_str. rewrite <- (host_texts te r old_lk (c_ld te be sa_rd) T HH t). pose proof (cc_layout t) as HLy.
  destruct (defs_get (gr_defs r) t) as [ies|]; [|destruct HS]. cbn [option_map]. specialize (HLy ies eq_refl).
  rewrite (to_str_refines lk (c_ld te be sa_rd) be usz HU dm HL (fun f => Some (ie_to_str T (kind_of f))) (tx_iei T) cc_str_ok usz ies 0 slots b n HLy (N.le_refl _) HS).
  rewrite (to_str_tmap (fun k => Some (ie_to_str T k)) kind_of). rewrite map_map. reflexivity.
Qed.

(* valid values fit their arrays *)
Lemma valid_ended k new : lenN new = sz te (ktype k) -> valid_ie k (c_val te be sa_rd k new) -> ended te be k new = true.
Proof.
  intros L HV. apply ended_iff. pose proof (abi_laid _ _ _ HA) as HL. pose proof (proj1 (proj2 HA)) as HB. destruct HB as (_ & B_char & _).
  assert (LY : forall n h, nth_error custom_h n = Some h -> laid_out te h) by (intros n h X; apply nth_error_In in X; rewrite Forall_forall in HL; exact (HL h X)).
  assert (VN : forall s, valid_name s -> lenN s <= 253) by (intros s (l & _ & _ & X); exact X).
  destruct k; try exact Logic.I; cbn [strings_end c_val valid_ie ktype] in *.
  - intros T2. rewrite T2 in HV. change (2 =? 0) with false in HV. change (2 =? 1) with false in HV. change (2 =? 2) with true in HV. cbv iota in HV.
    pose proof (LY 1%nat _ eq_refl) as U. pose proof (LY 2%nat _ eq_refl) as Y. unfold laid_out, chain, member_sz, mb, mba in U, Y. cbn [mb_name mb_arr mb_type] in U, Y.
    apply Forall_cons_iff in U. destruct U as [_ U]. apply Forall_cons_iff in U. destruct U as [[U3 U4] _]. cbn [mb_name mb_arr mb_type] in U3, U4. rewrite B_char in U4.
    apply (short_ends sa_rd new). rewrite (get_len _ 254) by lia. apply VN in HV. lia.
  - pose proof (LY 12%nat _ eq_refl) as Y. unfold laid_out, chain, member_sz, mb, mba in Y. cbn [mb_name mb_arr mb_type] in Y. rewrite B_char in Y.
    apply (short_ends sa_rd new). rewrite (get_len _ 254) by lia. apply VN in HV. lia.
  - pose proof (LY 13%nat _ eq_refl) as Y. unfold laid_out, chain, member_sz, mb, mba in Y. cbn [mb_name mb_arr mb_type] in Y. rewrite B_char in Y.
    apply (short_ends sa_rd new). rewrite (get_len _ 256) by lia. destruct HV as [_ HV]. lia.
Qed.
Definition ends_rel (d : mcoding fns) : Prop := forall p, tmap kind_of (erase_str d) = ttab p -> forall a m v,
  val_held lk (c_ld te be sa_rd) be true d a m v -> valid_val p v -> val_held lk (ended_val te be sa_rd) be true d a m (all_some v).
Lemma slot_ends d p a m s : ends_rel d -> tmap kind_of (erase_str d) = ttab p -> Forall (valid_val p) s ->
  slot_held be true (mhd d) (val_held lk (c_ld te be sa_rd) be true d) a m s -> slot_held be true (mhd d) (val_held lk (ended_val te be sa_rd) be true d) a m (map all_some s).
Proof.
  intros HR HT HV [H1 H2]. rewrite Forall_forall in HV. split; [intros P; destruct (H1 P) as (l & X & Y); exists l; split; [exact X|]; rewrite Y; destruct s; reflexivity|].
  destruct (h_multi (mh_h (mhd d))) as [[mx q]|].
  - destruct H2 as [(l & X & Y) H2]. split; [exists l; split; [exact X|]; rewrite Y; unfold lenN; rewrite map_length; reflexivity|].
    intros i v Hi Hm. rewrite nth_error_map in Hi. destruct (nth_error s i) as [x|] eqn:E; [|discriminate]. injection Hi as <-. apply (HR p HT _ _ _ (H2 i x E Hm)). apply HV. eapply nth_error_In; eassumption.
  - destruct s as [|v [|w s]]; [exact H2|exact (HR p HT _ _ _ H2 (HV v (or_introl eq_refl)))|exact H2].
Qed.
Lemma all_ends d : ends_rel d.
Proof.
  induction d as [h f|h sz0 nc o ies IH] using mcoding_ind'; intros p HT a m v HV VV.
  - destruct p as [h' k|]; [|discriminate HT]. cbn [erase_str tmap ttab] in HT. injection HT as _ HK. destruct v as [x|]; [|destruct HV]. cbn [val_held valid_val all_some] in *. destruct HV as (l & Hl & E).
    exists l. split; [exact Hl|]. subst k. unfold c_ld in E. unfold ended_val. rewrite valid_ended; [rewrite E; reflexivity| |rewrite E; exact VV].
    apply peek_iff in Hl. exact (proj1 (peek_len _ _ _ _ Hl)).
  - destruct p as [|h' ps]; [discriminate HT|]. cbn [erase_str tmap ttab] in HT. injection HT as _ HT. destruct v as [x|sl]; [destruct HV|]. apply val_held_nest in HV. cbn [all_some]. apply val_held_nest. cbn [valid_val] in VV.
    unfold struct_held in *. revert ps HT sl HV VV. induction IH as [|d ies Hd HF IHl]; intros [|p ps] HT sl HV VV; try discriminate HT; inversion HV; subst; [constructor|].
    cbn [map] in *. injection HT as HT1 HT. destruct VV as (_ & V1 & V2). constructor; [apply (slot_ends d p); assumption|]. apply (IHl ps); assumption.
Qed.
Theorem cc_valid t tab dm slots : get_msg_coding t = Some tab -> valid_struct tab slots -> union_holds r lk (c_ld te be sa_rd) be t dm slots -> union_ends te be sa_rd r lk t dm slots.
Proof.
  intros HT HV [HL HS]. split; [exact HL|]. pose proof (host_texts te r old_lk (c_ld te be sa_rd) T HH t) as G. rewrite HT in G. destruct (defs_get (gr_defs r) t) as [ies|]; [|exact HS]. cbn [option_map] in G. injection G as G.
  unfold struct_held, valid_struct in *. clear HT. revert tab G HV. induction HS as [|d s ies slots Hs HS IH]; intros tab G HV; inversion HV; subst; [constructor|]. cbn [map] in *. injection G as G1 G.
  match goal with H : _ /\ Forall _ s |- _ => destruct H as [_ HVs] end. constructor; [eapply slot_ends; [apply all_ends|exact G1|exact HVs|exact Hs]|]. eapply IH; eassumption.
Qed.
End Host.
