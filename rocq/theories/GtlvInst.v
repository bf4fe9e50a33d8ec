(* GtlvInst.v -- the gtlv lemmas in terms of the API functions, and counterexamples *)
From Verif Require Import Base BaseProofs GtlvModel GtlvSpec GtlvProofs DecEncModel DecEncSpec DecEncProofs DecOrdProofs
  DecCharProofs RtProofs OrdMandProofs EncShapeProofs WfProofs CStr TestTables.

Lemma load_next_by_tag_first c g ti :
  match load_next_by_tag_inst c g ti with
  | (g', Ok _) => exists g1 v, skips c ti g g1 /\ load_next c g1 = (g', Ok tt) /\ ld_val g' = Some v /\ ti_match (ld_ti g') ti = true
  | (g', Err ENOENT) => g' = g /\ exists g1 g2, skips c ti g g1 /\
      (load_next c g1 = (g2, Ok tt) /\ ld_val g2 = None \/ snd (load_next c g1) = Err ENOENT)
  | (g', Err e) => g' = g /\ exists g1, skips c ti g g1 /\ snd (load_next c g1) = Err e
  | (_, UB _) => True
  end.
Proof.
  unfold load_next_by_tag_inst. pose proof (by_tag_loop_first c ti (budget (ld_mem g) (ld_srclen g)) g) as H.
  destruct (by_tag_loop _ c g ti) as [g'|[]|u]; auto.
Qed.

Section Api.
Context {V : Type}.

Lemma locals Tail c o (ies : list (coding V)) : tail_closed Tail -> cfg_ok c ->
  Forall (all_leaves (leaf_local Tail)) ies -> Forall (all_cfgs cfg_ok) ies -> Forall (entry_local Tail c o) (map entry_of ies).
Proof.
  intros Ht Hc Hl Hg. apply Forall_forall. intros e He. apply in_map_iff in He. destruct He as (d & <- & Hd).
  rewrite Forall_forall in Hl, Hg. apply dec_coding_local; auto.
Qed.

Lemma gtlvs_ignores_unknown Tail c rep hdr (ies : list (coding V)) items u d rest rest' :
  cfg_ok c -> cfg_rt c rep hdr -> tail_closed Tail -> Tail rest -> Tail rest' ->
  Forall (all_leaves (leaf_local Tail)) ies -> Forall (all_cfgs cfg_ok) ies ->
  rep_items rep items -> rep (fst u) (lenN (snd u)) ->
  Forall (fun e => ti_match (h_ti (head e)) (fst u) = false) ies ->
  gtlvs_decode c false (Some ies) ((ser hdr items ++ ser1 hdr u ++ d) ++ rest) (lenN (ser hdr items ++ ser1 hdr u ++ d))
  = gtlvs_decode c false (Some ies) ((ser hdr items ++ d) ++ rest') (lenN (ser hdr items ++ d)).
Proof.
  intros Hok Hrt Ht Hr Hr' Hl Hg Hi Hu Hn. cbn [gtlvs_decode decode_entries].
  eapply decode_ignores_unknown; try eassumption; [apply locals; assumption|].
  apply Forall_forall. intros e He. apply in_map_iff in He. destruct He as (x & <- & Hx). rewrite Forall_forall in Hn. apply Hn, Hx.
Qed.

Lemma gtlvs_reorder Tail c rep hdr (ies : list (coding V)) items items' rest rest' slots :
  cfg_ok c -> cfg_rt c rep hdr -> tail_closed Tail -> Tail rest -> Tail rest' ->
  Forall (all_leaves (leaf_local Tail)) ies -> Forall (all_cfgs cfg_ok) ies ->
  rep_items rep items -> reorder items items' ->
  gtlvs_decode c false (Some ies) (ser hdr items ++ rest) (lenN (ser hdr items)) = Ok slots ->
  gtlvs_decode c false (Some ies) (ser hdr items' ++ rest') (lenN (ser hdr items')) = Ok slots.
Proof.
  intros Hok Hrt Ht Hr Hr' Hl Hg Hi Ho. cbn [gtlvs_decode decode_entries].
  eapply decode_reorder; try eassumption. apply locals; assumption.
Qed.

Lemma gtlvs_repr_roundtrip Tail c o (ies : list (coding V)) slots bs buf cap rest :
  cfg_ok c -> tail_closed Tail -> Tail rest ->
  Forall (all_leaves (leaf_local Tail)) ies -> Forall (all_cfgs cfg_ok) ies -> all_tables table_ok ies ->
  struct_repr Tail c ies slots bs -> lenN buf + lenN bs <= cap ->
  gtlvs_encode c cap (Some ies) buf slots = EOk (buf ++ bs)
  /\ gtlvs_decode c o (Some ies) (bs ++ rest) (lenN bs) = Ok slots.
Proof.
  intros. split; [eapply gtlvs_encode_repr; eassumption|eapply gtlvs_decode_rt; eassumption].
Qed.
End Api.

(* ---------------------------------------------------------------- leaves of the test tables *)

Definition NulTail (r : list N) : Prop := In 0 r.
Lemma NulTail_closed : tail_closed NulTail.
Proof. intros x r H. apply in_or_app. right. exact H. Qed.
Definition AnyTail (_ : list N) : Prop := True.
Lemma AnyTail_closed : tail_closed AnyTail.
Proof. intros x r H. exact I. Qed.

Lemma rd_be_app n v rest : n <= lenN v -> rd_be n (v ++ rest) = rd_be n v.
Proof.
  intros H. unfold rd_be, rdN. rewrite lenN_app, takeN_app_le by exact H.
  destruct (N.leb_spec n (lenN v + lenN rest)); [|lia]. destruct (N.leb_spec n (lenN v)); [reflexivity|lia].
Qed.

Lemma l_u16_local : leaf_local AnyTail l_u16.
Proof.
  intros d v rest rest' H _ _. injection H as <-. unfold dec_u16. destruct (N.eqb_spec (lenN v) 2); [|reflexivity]. cbn [negb].
  rewrite !rd_be_app by lia. reflexivity.
Qed.
Lemma l_u16_safe : leaf_safe AnyTail l_u16.
Proof.
  intros d v rest H _. injection H as <-. unfold dec_u16. destruct (N.eqb_spec (lenN v) 2); [|reflexivity]. cbn [negb].
  rewrite rd_be_app by lia. unfold rd_be, rdN. destruct (N.leb_spec 2 (lenN v)); [reflexivity|lia].
Qed.
Lemma l_u16_repr x : x <= 32767 -> leaf_repr AnyTail l_u16 (TInt x) (be_put 2 x).
Proof.
  intros Hx. split.
  - eexists; split; [reflexivity|]. intros room _. unfold enc_u16. destruct (N.ltb_spec 32767 x); [lia|reflexivity].
  - eexists; split; [reflexivity|]. intros rest _. rewrite be_put_lenN. unfold dec_u16. cbn [negb N.eqb N.of_nat].
    unfold rd_be. rewrite rdN_app' by (rewrite be_put_lenN; reflexivity). cbn [bind].
    rewrite be_get_put; [reflexivity|]. change (256 ^ N.of_nat 2) with 65536. lia.
Qed.
Lemma l_u16_wf x : x <= 32767 -> leaf_wf AnyTail l_u16 (TInt x).
Proof.
  intros Hx. split; [|exists (be_put 2 x); apply l_u16_repr, Hx].
  intros f r r' b b' H. injection H as <-. unfold enc_u16. destruct (32767 <? x); congruence.
Qed.

(* a small nested table for the examples: mandatory, optional, repeated and nested IEs *)
Definition ex_inner : list (coding tv) := [CLeaf (hd_m 1) l_u16; CLeaf (hd_o 2) l_u16].
Definition ex_table : list (coding tv) :=
  [CLeaf (hd_m 1) l_u16; CLeaf (hd_o 2) l_u16; CLeaf (hd_multi 3 4 1) l_u16; CNest (hd_o 4) None OrdSame ex_inner].
Definition ex_struct : list (slot tv) :=
  [[VLeaf (TInt 7)]; []; [VLeaf (TInt 8); VLeaf (TInt 9)]; [VStruct [[VLeaf (TInt 10)]; [VLeaf (TInt 11)]]]].
Definition ex_bytes : list N := [1;2;0;7;3;2;0;8;3;2;0;9;4;8;1;2;0;10;2;2;0;11].

Lemma distinct_dec (V : Type) (ies : list (coding V)) :
  (fix go l := match l with [] => true | a :: l' => forallb (fun b => negb (ti_match (h_ti (head a)) (h_ti (head b)))) l' && go l' end) ies = true ->
  distinct_tags ies.
Proof.
  induction ies as [|a ies IH]; intros H i j x y Hij Hi Hj.
  - destruct i; discriminate.
  - apply andb_prop in H. destruct H as [H1 H2]. destruct i as [|i], j as [|j]; try lia.
    + injection Hi as <-. cbn [nth_error] in Hj. apply nth_error_In in Hj. rewrite forallb_forall in H1.
      specialize (H1 y Hj). destruct (ti_match _ _); [discriminate|reflexivity].
    + eapply (IH H2 i j); [lia|exact Hi|exact Hj].
Qed.
Lemma ex_table_ok : all_tables table_ok ex_table.
Proof.
  repeat split; repeat constructor; try (apply distinct_dec; reflexivity); try (unfold small_table, seen_max; vm_compute; discriminate); vm_compute; discriminate.
Qed.
Lemma ex_table_plain : all_tables table_plain ex_table.
Proof.
  repeat split; repeat constructor; try (apply distinct_dec; reflexivity); try (unfold small_table, seen_max; vm_compute; discriminate); vm_compute; discriminate.
Qed.
Lemma ex_local : Forall (all_leaves (leaf_local AnyTail)) ex_table.
Proof. repeat constructor; apply l_u16_local. Qed.
Lemma ex_safe : Forall (all_leaves (leaf_safe AnyTail)) ex_table.
Proof. repeat constructor; apply l_u16_safe. Qed.
Lemma ex_cfgs (P : cfg -> Prop) : Forall (all_cfgs P) ex_table.
Proof. repeat constructor. Qed.
Lemma ex_tags : Forall (all_tags tag8) ex_table.
Proof. repeat constructor; eexists; (split; [reflexivity|]); reflexivity. Qed.
Lemma ex_wf : struct_wf AnyTail ex_table ex_struct.
Proof.
  repeat constructor; try (apply l_u16_wf; lia); try (vm_compute; try discriminate; reflexivity).
Qed.

(* ---------------------------------------------------------------- counterexamples *)

(* C16: ordered decoding skips a mandatory IE when it jumps to a later entry with the same tag *)
Definition jump_table : list (coding tv) := [CLeaf (hd_multi 1 1 0) l_u16; CLeaf (hd_m 2) l_u16; CLeaf (hd_o 1) l_u16].
Lemma ordered_mandatory_skipped :
  gtlvs_decode t8l8v true (Some jump_table) [1;2;0;5;1;2;0;6] 8 = Ok [[VLeaf (TInt 5)]; []; [VLeaf (TInt 6)]]
  /\ ~ struct_ok jump_table [[VLeaf (TInt 5)]; []; [VLeaf (TInt 6)]].
Proof.
  split; [vm_compute; reflexivity|]. intros H. inversion H as [|? ? ? ? _ H2]; subst. inversion H2 as [|? ? ? ? [H3 _] _]; subst.
  discriminate.
Qed.
(* C16: ordered decoding accepts one repetition where two are mandatory *)
Definition mand2_table : list (coding tv) := [CLeaf (hd_multi 1 4 2) l_u16].
Lemma ordered_count_not_enforced :
  distinct_tags mand2_table /\
  gtlvs_decode t8l8v true (Some mand2_table) [1;2;0;5] 4 = Ok [[VLeaf (TInt 5)]]
  /\ ~ struct_ok mand2_table [[VLeaf (TInt 5)]].
Proof.
  split; [apply distinct_dec; reflexivity|]. split; [vm_compute; reflexivity|]. intros H. inversion H as [|? ? ? ? [H3 _] _]; subst.
  destruct H3 as (_ & H3 & _). specialize (H3 eq_refl). vm_compute in H3. apply H3. reflexivity.
Qed.

(* C13: a second entry with count_max = 0 for the same tag makes ordered decoding write beyond its array *)
Definition max0_table : list (coding tv) := [CLeaf (hd_multi 1 1 0) l_u16; CLeaf (hd_multi 1 0 0) l_u16].
Lemma ordered_max0_overflow : gtlvs_decode t8l8v true (Some max0_table) [1;2;0;5;1;2;0;6] 8 = UB OobWrite.
Proof. vm_compute. reflexivity. Qed.

(* C17: a leaf that writes its string; T8L8V can not express more than 255 bytes *)
Definition enc_any (room : N) (v : tv) : enc_out := match v with TStr s => (s, None) | _ => ([], Some EFAULT) end.
Definition dec_any (m : list N) (len : N) : res tv := b <- rdN len m ;; Ok (TStr b).
Definition l_any : leaf tv := mkLeaf (Some dec_any) (Some enc_any).
Definition any_table : list (coding tv) := [CLeaf (hd_m 1) l_any; CLeaf (hd_o 2) l_any].
Definition big_struct : list (slot tv) := [[VLeaf (TStr (repeat 9 256))]; []].
Lemma big_value_len0 : gtlvs_encode t8l8v 1024 (Some any_table) [] big_struct = EOk ([1; 0] ++ repeat 9 256).
Proof. vm_compute. reflexivity. Qed.
(* no room for the header of the second IE: its value ends up in the first IE *)
Definition two_struct : list (slot tv) := [[VLeaf (TStr [7])]; [VLeaf (TStr [8])]].
Lemma no_header_merged : gtlvs_encode t8l8v 4 (Some any_table) [] two_struct = EOk [1; 2; 7; 8].
Proof. vm_compute. reflexivity. Qed.

Lemma cons_inj {A} (a b : A) l l' : a :: l = b :: l' -> a = b /\ l = l'.
Proof. intros H. injection H. auto. Qed.

Lemma big_value_not_shaped : ~ struct_shape hdr_t8l8v any_table big_struct ([1; 0] ++ repeat 9 256).
Proof.
  intros H. unfold any_table, big_struct, two_struct in H. cbn [struct_shape] in H. destruct H as (b1 & b2 & E & (vbs & Hf & ->) & _). cbn [h_multi hd_m head big_struct firstn] in Hf.
  inversion Hf as [|? vb ? ? Hv Hn]; subst. inversion Hn; subst. clear Hf Hn. cbn [val_shape] in Hv. destruct Hv as (f & room & Ef & Efx).
  injection Ef as <-. cbn in Efx. injection Efx as <-.
  cbn [map concat app hdr_t8l8v] in E. apply cons_inj in E. destruct E as [_ E]. apply cons_inj in E. destruct E as [E _].
  vm_compute in E. discriminate.
Qed.
Lemma no_header_not_shaped : ~ struct_shape hdr_t8l8v any_table two_struct [1; 2; 7; 8].
Proof.
  intros H. unfold any_table, big_struct, two_struct in H. cbn [struct_shape] in H. destruct H as (b1 & b2 & E & (vbs & Hf & ->) & _). cbn [h_multi hd_m head two_struct firstn] in Hf.
  inversion Hf as [|? vb ? ? Hv Hn]; subst. inversion Hn; subst. clear Hf Hn. cbn [val_shape] in Hv. destruct Hv as (f & room & Ef & Efx).
  injection Ef as <-. cbn in Efx. injection Efx as <-.
  cbn [map concat app hdr_t8l8v] in E. apply cons_inj in E. destruct E as [_ E]. apply cons_inj in E. destruct E as [E _].
  vm_compute in E. discriminate.
Qed.

(* C81: the broken IE behind IE 1 is not looked at, as the table is exhausted *)
Lemma ordered_ignores_rest : exists (ies : list (coding tv)) d e slots,
  parse t8l8v d (lenN d) = Err e /\ gtlvs_decode t8l8v true (Some ies) d (lenN d) = Ok slots /\ is_ok (gtlvs_decode t8l8v false (Some ies) d (lenN d)) = false.
Proof. exists [CLeaf (hd_m 1) l_any], [1;2;0;5;9;9]. do 2 eexists. split; [|split]; vm_compute; reflexivity. Qed.
