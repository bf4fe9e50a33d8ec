(* RxFullProofs.v -- the receive loop for every datagram, also with length fields that do not cover the header *)
From Verif Require Import Base BaseProofs GtlvModel GtlvSpec DecEncModel DecEncSpec DecEncProofs CStr IesModel IesSpec IesProofs
  TablesModel MsgModel MsgSpec MsgProofs RxProofs TermProofs MsgEncProofs MsgFinalProofs.

(* ---------------------------------------------------------------- the only undefined behaviour is reading too far *)

Definition oo {A} (x : res A) : Prop := forall u, x = UB u -> u = OobRead.
Lemma oo_bind {A B} (x : res A) (f : A -> res B) : oo x -> (forall a, x = Ok a -> oo (f a)) -> oo (bind x f).
Proof. intros Hx Hf. destruct x as [a|e|u]; cbn; [apply Hf; reflexivity|intros u; discriminate|intros v H; injection H as <-; apply Hx; reflexivity]. Qed.
Ltac oo_step := match goal with
  | |- oo (bind _ _) => apply oo_bind; [|intros ? ?]
  | |- oo (if ?b then _ else _) => destruct b eqn:?
  | |- oo (match ?x with _ => _ end) => destruct x
  | |- oo (Ok _) => intros ?; discriminate
  | |- oo (Err _) => intros ?; discriminate
  | |- oo (UB OobRead) => intros ? [= <-]; reflexivity
  end.
Ltac oo_tac := cbv zeta; repeat oo_step; auto.

Lemma oo_rdN n m : oo (rdN n m). Proof. unfold rdN. oo_tac. Qed.
Lemma oo_rd_be n m : oo (rd_be n m). Proof. unfold rd_be. oo_tac. apply oo_rdN. Qed.
Lemma oo_at_ofs m o n : oo (at_ofs m o n). Proof. apply oo_rdN. Qed.
Lemma oo_take m l o n : oo (take m l o n). Proof. unfold take. oo_tac. apply oo_at_ofs. Qed.
Lemma oo_bits_get b p : oo (bits_get b p). Proof. unfold bits_get. oo_tac. Qed.
Lemma oo_apn fuel : forall m rest, rest < N.of_nat fuel -> oo (apn_to_str fuel m rest).
Proof.
  induction fuel as [|f IH]; intros m rest H; [lia|]. cbn [apn_to_str]. destruct (rest =? 0) eqn:E; [oo_tac|].
  destruct m as [|lab m]; [oo_tac|]. destruct (lab =? 0) eqn:E2; [oo_tac|]. destruct (rest <? lab + 1) eqn:E3; [oo_tac|].
  apply oo_bind; [apply oo_rdN|]. intros l _. cbv zeta. apply oo_bind; [apply IH; lia|]. intros [s|] _; oo_tac.
Qed.
Lemma oo_dec_name m len mx : 1 <= len -> len <= mx -> oo (dec_name m len mx).
Proof.
  intros H1 H2. unfold dec_name. apply oo_bind; [apply oo_apn; lia|]. intros [s|] E; [|oo_tac].
  apply apn_len in E. dif X; [lia|]. oo_tac.
Qed.
Lemma oo_strlen m : oo (c_strlen m).
Proof. induction m as [|b m IH]; cbn [c_strlen]; oo_tac. Qed.
Lemma oo_strlcpy m n : oo (osmo_strlcpy m n).
Proof. unfold osmo_strlcpy. oo_tac. apply oo_strlen. Qed.
#[local] Hint Resolve oo_strlen oo_strlcpy oo_rdN oo_rd_be oo_at_ofs oo_take oo_bits_get : core.
Lemma oo_dec_of k m len : oo (dec_of k m len).
Proof.
  destruct k; cbn [dec_of];
  unfold dec_cause, dec_offending_ie, dec_8, dec_16be, dec_32be, dec_3gpp_iface_type, dec_iface, dec_node_id, dec_up_ff, dec_cp_ff,
    dec_f_seid, dec_f_teid, dec_apply_action, dec_network_inst, dec_ohc, dec_act_predef, dec_ohr, dec_ue_ip, oh_bits, dec_bits_padded, dec_addrs, dec_opt; oo_tac;
  apply oo_dec_name; lia.
Qed.
Lemma oo_place c es : Forall (fun e : entry iev => forall m len, oo (e_dec e c false m len)) es -> forall idx allowed slots ti m len,
  oo (place c es idx allowed slots ti m len).
Proof.
  intros H. induction H as [|e es He H IH]; intros idx allowed slots ti m len; destruct slots as [|s slots]; cbn [place]; oo_tac.
Qed.
Lemma oo_check_mand (es : list (entry iev)) : forall idx slots, oo (check_mand idx es slots).
Proof. induction es as [|e es IH]; intros idx [|s slots]; cbn [check_mand]; oo_tac. Qed.
Lemma load_next_t16_oo g g' u : load_next t16l16v g = (g', UB u) -> u = OobRead.
Proof.
  unfold load_next, next_tl_valid. cbn [cfg_load t16l16v]. unfold t16l16v_load.
  repeat match goal with |- context [if ?b then _ else _] => destruct b end; try discriminate.
  destruct (dropN _ (ld_mem g)) as [|a [|b [|x [|y l]]]]; try (intros [= _ <-]; reflexivity).
  repeat match goal with |- context [if ?b then _ else _] => destruct b end; discriminate.
Qed.
Lemma oo_unord_loop es : Forall (fun e : entry iev => forall m len, oo (e_dec e t16l16v false m len)) es -> forall fuel g slots,
  nf (unord_loop fuel t16l16v es g slots) -> oo (unord_loop fuel t16l16v es g slots).
Proof.
  intros H. induction fuel as [|f IH]; intros g slots Hn; [exfalso; apply Hn; reflexivity|]. cbn [unord_loop] in *.
  destruct (load_next t16l16v g) as [g' [[]|e|u]] eqn:E; [|oo_tac|intros v [= <-]; exact (load_next_t16_oo _ _ _ E)].
  destruct (ld_val g') as [v|] eqn:Ev; [|oo_tac].
  apply oo_bind; [apply oo_place; exact H|]. intros sl Es. apply IH. rewrite Es in Hn. exact Hn.
Qed.
Lemma oo_decode_unordered es m n : Forall (fun e : entry iev => forall m len, nf (e_dec e t16l16v false m len)) es ->
  Forall (fun e : entry iev => forall m len, oo (e_dec e t16l16v false m len)) es -> oo (decode_unordered t16l16v es m n).
Proof.
  intros Hn H. unfold decode_unordered. apply oo_bind.
  - apply oo_unord_loop; [exact H|]. apply nf_unord_loop; [exact Hn|unfold budget; lia|]. cbn [load_start pos_of ld_val ld_srclen ld_mem]. unfold budget. lia.
  - intros sl _. apply oo_bind; [apply oo_check_mand|]. intros _ _. oo_tac.
Qed.
Lemma oo_ptab p : forall m len, oo (dec_coding (ptab p) t16l16v false m len).
Proof.
  induction p as [h k|h ies IH] using pcoding_ind'; intros m len.
  - cbn [ptab dec_coding]. unfold leaf_of. cbn [lf_dec]. oo_tac. apply oo_dec_of.
  - cbn [ptab dec_coding]. apply oo_bind; [|intros ? _; oo_tac]. unfold decode_entries. rewrite map_map.
    apply oo_decode_unordered; apply Forall_map; cbn [e_dec]; [|exact IH]. apply Forall_forall. intros q _. apply nf_ptab.
Qed.
Theorem decode_tlv_oo t m n u : decode_tlv t m n = UB u -> u = OobRead.
Proof.
  revert u. change (oo (decode_tlv t m n)). unfold decode_tlv, msg_table. destruct (get_msg_coding t) as [ies|]; [|cbn; oo_tac]. cbn [option_map gtlvs_decode].
  unfold decode_entries. rewrite map_map. apply oo_decode_unordered; apply Forall_map, Forall_forall; intros p _; [apply nf_ptab|apply oo_ptab].
Qed.

(* ---------------------------------------------------------------- a length far beyond the memory is never decoded successfully *)

Lemma load_next_t16_end g g' : load_next t16l16v g = (g', Ok tt) -> ld_val g' = None -> ld_srclen g = pos_of g.
Proof.
  unfold load_next, next_tl_valid. fold (pos_of g). intros H Hv.
  destruct (ld_srclen g <? pos_of g) eqn:E1; [discriminate|].
  match type of H with context [if ?b then _ else _] => destruct b end; [discriminate|].
  match type of H with context [if ?b then _ else _] => destruct b eqn:E3 end; [lia|].
  destruct (cfg_load _ _ _) as [[[ti len] hsz]|e|u] in H; try discriminate.
  match type of H with context [if ?b then _ else _] => destruct b end; [discriminate|]. injection H as <-. discriminate.
Qed.
Lemma load_next_t16_pos g g' : bytes_ok (ld_mem g) -> load_next t16l16v g = (g', Ok tt) -> ld_val g' <> None ->
  pos_of g' <= lenN (ld_mem g) + 65535.
Proof.
  intros Hb H Hv. destruct (load_next_t16 g g' H Hv) as (_ & _ & Hp & _). revert H Hv.
  unfold load_next, next_tl_valid. fold (pos_of g). intros H Hv.
  destruct (ld_srclen g <? pos_of g) eqn:E1; [discriminate|].
  match type of H with context [if ?b then _ else _] => destruct b end; [discriminate|].
  match type of H with context [if ?b then _ else _] => destruct b end; [injection H as <-; cbn in Hv; congruence|].
  cbn [cfg_load t16l16v] in H. unfold t16l16v_load in H.
  assert (Hbd : bytes_ok (dropN (pos_of g) (ld_mem g))) by (apply bytes_ok_dropN, Hb).
  destruct (dropN (pos_of g) (ld_mem g)) as [|a [|b [|x [|y l]]]] eqn:Ed; try discriminate.
  match type of H with context [if ?b then _ else _] => destruct b eqn:E4 end; [discriminate|].
  injection H as <-. unfold pos_of at 1. cbn [ld_val ld_len].
  inversion Hbd as [|? ? _ H1]; subst. inversion H1 as [|? ? _ H2]; subst. inversion H2 as [|? ? Hx H3]; subst. inversion H3 as [|? ? Hy _]; subst.
  unfold byte_ok in *. lia.
Qed.
Lemma unord_loop_len (es : list (entry iev)) fuel : forall g slots r, bytes_ok (ld_mem g) -> pos_of g <= lenN (ld_mem g) + 65535 ->
  unord_loop fuel t16l16v es g slots = Ok r -> ld_srclen g <= lenN (ld_mem g) + 65535.
Proof.
  induction fuel as [|f IH]; intros g slots r Hb Hp H; [discriminate|]. cbn [unord_loop] in H.
  destruct (load_next t16l16v g) as [g' [[]|e|u]] eqn:E; try discriminate.
  destruct (ld_val g') as [v|] eqn:Ev; [|rewrite (load_next_t16_end g g' E Ev); exact Hp].
  assert (Hv : ld_val g' <> None) by congruence.
  destruct (load_next_t16 g g' E Hv) as (Hm & Hs & _ & _). pose proof (load_next_t16_pos g g' Hb E Hv) as Hp'.
  destruct (place _ _ _ _ _ _ _ _) as [sl|e|u] in H; try discriminate. cbn [bind] in H.
  rewrite <- Hm, <- Hs. apply (IH g' sl r); [rewrite Hm; exact Hb|rewrite Hm; exact Hp'|exact H].
Qed.
Lemma decode_tlv_len t m n r : bytes_ok m -> decode_tlv t m n = Ok r -> n <= lenN m + 65535.
Proof.
  intros Hb. unfold decode_tlv, msg_table. destruct (get_msg_coding t) as [ies|]; [|discriminate]. cbn [option_map gtlvs_decode].
  unfold decode_entries, decode_unordered. destruct (unord_loop _ _ _ _ _) as [sl|e|u] eqn:E; try discriminate. intros _.
  apply unord_loop_len in E; [exact E|exact Hb|]. cbn [load_start pos_of ld_val ld_mem]. lia.
Qed.

(* ---------------------------------------------------------------- more memory behind the data changes nothing that is not undefined *)

Definition mono {A} (F : list N -> res A) : Prop := forall m r, (forall u, F m <> UB u) -> F (m ++ r) = F m.
Lemma mono_const {A} (x : res A) : mono (fun _ => x). Proof. intros m r _. reflexivity. Qed.
Lemma mono_bind {A B} (F : list N -> res A) (G : A -> list N -> res B) : mono F -> (forall a, mono (G a)) -> mono (fun m => bind (F m) (fun a => G a m)).
Proof.
  intros HF HG m r H. rewrite (HF m r).
  - destruct (F m) as [a|e|u]; cbn in *; [apply HG; exact H|reflexivity|reflexivity].
  - intros u E. apply (H u). rewrite E. reflexivity.
Qed.
Lemma mono_if {A} (b : bool) (F G : list N -> res A) : mono F -> mono G -> mono (fun m => if b then F m else G m).
Proof. intros HF HG m r. destruct b; auto. Qed.
Lemma dropN_app_any n (a b : list N) : dropN n (a ++ b) = dropN n a ++ dropN (n - lenN a) b.
Proof. unfold dropN, lenN. rewrite skipn_app. f_equal. f_equal. lia. Qed.
Lemma mono_drop {A} n (F : list N -> res A) : mono F -> mono (fun m => F (dropN n m)).
Proof. intros HF m r H. rewrite dropN_app_any. apply HF. exact H. Qed.
Lemma mono_rdN n : mono (rdN n).
Proof.
  intros m r. unfold rdN. rewrite lenN_app. dif E; intros H; [rewrite takeN_app_le by lia; dif X; [reflexivity|lia]|].
  exfalso. exact (H _ eq_refl).
Qed.
Lemma mono_rd_be n : mono (rd_be n).
Proof. unfold rd_be. apply (mono_bind (rdN n) (fun b _ => Ok (be_get b))); [apply mono_rdN|intros; apply mono_const]. Qed.
Lemma mono_at_ofs o n : mono (fun m => at_ofs m o n).
Proof. unfold at_ofs. apply mono_drop, mono_rdN. Qed.
Lemma mono_take l o n : mono (fun m => take m l o n).
Proof. unfold take. apply mono_if; [apply mono_const|apply mono_at_ofs]. Qed.
Lemma mono_apn fuel : forall rest, mono (fun m => apn_to_str fuel m rest).
Proof.
  induction fuel as [|f IH]; intros rest m r; [reflexivity|]. cbn [apn_to_str].
  dif E; [reflexivity|]. destruct m as [|lab m]; [intros H; exfalso; exact (H _ eq_refl)|]. cbn [app].
  dif E2; [reflexivity|]. dif E3; [reflexivity|].
  apply (mono_bind (rdN lab) (fun l m => bind (apn_to_str f (dropN lab m) (rest - (lab + 1))) _)); [apply mono_rdN|].
  intros l. apply (mono_bind (fun m => apn_to_str f (dropN lab m) (rest - (lab + 1))) (fun x _ => _)).
  - apply (mono_drop lab (fun m => apn_to_str f m (rest - (lab + 1)))), IH.
  - intros a. apply mono_const.
Qed.
Lemma mono_dec_name len mx : mono (fun m => dec_name m len mx).
Proof. unfold dec_name. apply (mono_bind (fun m => apn_to_str _ m len) (fun x _ => _)); [apply mono_apn|intros a; apply mono_const]. Qed.
Lemma mono_strlen : mono c_strlen.
Proof.
  intros m r. induction m as [|b m IH]; cbn [c_strlen app]; [intros H; exfalso; exact (H _ eq_refl)|].
  dif E; [reflexivity|]. intros H. rewrite IH; [reflexivity|]. intros u Eu. rewrite Eu in H. exact (H u eq_refl).
Qed.
Lemma strlen_le m n : c_strlen m = Ok n -> n <= lenN m.
Proof.
  revert n. induction m as [|b m IH]; intros n; cbn [c_strlen]; [discriminate|]. dif E; [intros [= <-]; lia|].
  destruct (c_strlen m) as [k|e|u]; try discriminate. cbn [bind]. intros [= <-]. rewrite lenN_cons. specialize (IH k eq_refl). lia.
Qed.
Lemma mono_strlcpy n : mono (fun m => osmo_strlcpy m n).
Proof.
  intros m r. unfold osmo_strlcpy. intros H. rewrite mono_strlen.
  - destruct (c_strlen m) as [k|e|u] eqn:E; [|reflexivity|reflexivity]. cbn [bind]. apply strlen_le in E. rewrite takeN_app_le by lia. reflexivity.
  - intros u E. rewrite E in H. exact (H u eq_refl).
Qed.
Ltac mono_step := match goal with
  | |- mono (fun m => bind (@?F m) (@?G m)) => apply (mono_bind F (fun a m => G m a)); [|intros ?]
  | |- mono (fun m => if ?b then @?F m else @?G m) => apply (mono_if b F G)
  | |- mono (fun m => rdN ?n m) => apply mono_rdN
  | |- mono (rdN _) => apply mono_rdN
  | |- mono (fun m => rd_be ?n m) => apply mono_rd_be
  | |- mono (rd_be _) => apply mono_rd_be
  | |- mono (fun m => at_ofs m _ _) => apply mono_at_ofs
  | |- mono (fun m => take m _ _ _) => apply mono_take
  | |- mono (fun m => dec_name m _ _) => apply mono_dec_name
  | |- mono (fun m => dec_name (dropN ?n m) ?a ?b) => apply (mono_drop n (fun m => dec_name m a b))
  | |- mono (fun m => osmo_strlcpy m _) => apply mono_strlcpy
  | |- mono (fun m => match ?x with _ => _ end) => destruct x
  | |- mono (fun m => ?x) => apply (mono_const x)
  end.
Lemma mono_dec_of k len : mono (fun m => dec_of k m len).
Proof.
  destruct k; cbn [dec_of];
  unfold dec_cause, dec_offending_ie, dec_8, dec_16be, dec_32be, dec_3gpp_iface_type, dec_iface, dec_node_id, dec_up_ff, dec_cp_ff,
    dec_f_seid, dec_f_teid, dec_apply_action, dec_network_inst, dec_ohc, dec_act_predef, dec_ohr, dec_ue_ip, oh_bits, dec_bits_padded, dec_addrs, dec_opt;
  cbv zeta; repeat mono_step.
Qed.

Lemma mono_place c es : Forall (fun e : entry iev => forall len, mono (fun m => e_dec e c false m len)) es -> forall idx allowed slots ti len,
  mono (fun m => place c es idx allowed slots ti m len).
Proof.
  intros H. induction H as [|e es He H IH]; intros idx allowed slots ti len; destruct slots as [|s slots]; cbn [place]; cbv zeta; repeat mono_step;
    try apply IH; try apply He.
Qed.
Definition more (r : list N) (g : load) : load := mkLoad (ld_mem g ++ r) (ld_srclen g) (ld_ti g) (ld_len g) (ld_val g).
Lemma load_next_more r g g' x : load_next t16l16v g = (g', x) -> (forall u, x <> UB u) -> load_next t16l16v (more r g) = (more r g', x).
Proof.
  unfold load_next, next_tl_valid. cbn [more ld_val ld_len ld_srclen ld_mem ld_ti]. fold (pos_of g).
  destruct (ld_srclen g <? pos_of g); [intros [= <- <-] _; reflexivity|].
  match goal with |- context [if ?b then _ else _] => destruct b end; [intros [= <- <-] _; reflexivity|].
  match goal with |- context [if ?b then _ else _] => destruct b end; [intros [= <- <-] _; reflexivity|].
  cbn [cfg_load t16l16v]. rewrite dropN_app_any. unfold t16l16v_load.
  destruct (dropN (pos_of g) (ld_mem g)) as [|a [|b [|p [|q l]]]]; try (intros [= <- <-] H; exfalso; exact (H _ eq_refl)).
  cbn [app]. match goal with |- context [if ?b then _ else _] => destruct b end; intros [= <- <-] _; reflexivity.
Qed.
Lemma unord_loop_more es r : Forall (fun e : entry iev => forall len, mono (fun m => e_dec e t16l16v false m len)) es -> forall fuel fuel' g slots,
  (fuel <= fuel')%nat -> (forall u, unord_loop fuel t16l16v es g slots <> UB u) -> unord_loop fuel' t16l16v es (more r g) slots = unord_loop fuel t16l16v es g slots.
Proof.
  intros H. induction fuel as [|f IH]; intros fuel' g slots Hf Hn; [exfalso; exact (Hn _ eq_refl)|].
  destruct fuel' as [|f']; [lia|]. cbn [unord_loop] in *. destruct (load_next t16l16v g) as [g' x] eqn:E.
  assert (Hx : forall u, x <> UB u) by (intros u ->; exact (Hn _ eq_refl)).
  rewrite (load_next_more r g g' x E Hx). destruct x as [[]|e|u]; [|reflexivity|reflexivity].
  cbn [more ld_val ld_mem ld_ti ld_len]. destruct (ld_val g') as [v|] eqn:Ev; [|reflexivity].
  assert (Hp : forall u, place t16l16v es 0 0 slots (ld_ti g') (dropN v (ld_mem g')) (ld_len g') <> UB u).
  { intros u Eu. rewrite Eu in Hn. exact (Hn u eq_refl). }
  rewrite dropN_app_any. rewrite (mono_place t16l16v es H 0 0 slots (ld_ti g') (ld_len g') (dropN v (ld_mem g')) _ Hp).
  destruct (place _ _ _ _ _ _ _ _) as [sl|e|u]; [|reflexivity|reflexivity]. cbn [bind] in *.
  replace (mkLoad (ld_mem g' ++ r) (ld_srclen g') (ld_ti g') (ld_len g') (Some v)) with (more r g') by (unfold more; rewrite Ev; reflexivity).
  apply IH; [lia|exact Hn].
Qed.
Lemma mono_decode_unordered es n : Forall (fun e : entry iev => forall len, mono (fun m => e_dec e t16l16v false m len)) es ->
  mono (fun m => decode_unordered t16l16v es m n).
Proof.
  intros H m r Hn. unfold decode_unordered in *.
  change (load_start (m ++ r) n) with (more r (load_start m n)).
  rewrite (unord_loop_more es r H (budget m n) (budget (m ++ r) n)); [reflexivity| |].
  - unfold budget. rewrite lenN_app. lia.
  - intros u E. rewrite E in Hn. exact (Hn u eq_refl).
Qed.
Lemma mono_ptab p : forall len, mono (fun m => dec_coding (ptab p) t16l16v false m len).
Proof.
  induction p as [h k|h ies IH] using pcoding_ind'; intros len.
  - cbn [ptab dec_coding]. unfold leaf_of. cbn [lf_dec]. apply (mono_bind (fun m => dec_of k m len) (fun v _ => Ok (VLeaf v))); [apply mono_dec_of|intros; apply mono_const].
  - cbn [ptab dec_coding]. unfold decode_entries. rewrite map_map.
    refine (mono_bind (fun m => decode_unordered t16l16v _ m len) (fun v _ => Ok (VStruct v)) _ _); [|intros; apply mono_const].
    apply mono_decode_unordered. apply Forall_map. cbn [e_dec]. exact IH.
Qed.
Theorem mono_decode_tlv t n : mono (fun m => decode_tlv t m n).
Proof.
  unfold decode_tlv, msg_table. destruct (get_msg_coding t) as [ies|]; [|intros m r _; reflexivity]. cbn [option_map gtlvs_decode].
  unfold decode_entries. rewrite map_map. apply mono_decode_unordered, Forall_map, Forall_forall. intros p _. apply mono_ptab.
Qed.

(* ---------------------------------------------------------------- the receive loop *)

Lemma in_nul_dec (l : list N) : {In 0 l} + {~ In 0 l}.
Proof. apply in_dec, N.eq_dec. Qed.

(* one complete message *)
Lemma rx_data_framed p q rest : bytes_ok p -> framed p ->
  rx_data (p ++ q) rest = outcome p :: rx_data q rest \/ (~ In 0 (q ++ rest) /\ rx_data (p ++ q) rest = [RxUB OobRead]).
Proof.
  intros Hb Hf. apply message_framed in Hf. destruct Hf as (h & Hh & Hl & Ho). unfold rx_data.
  pose proof (hdr_of_ok _ _ _ (eq_trans (eq_sym (decode_header_nil p)) Hh)) as (H1 & H2 & H3 & H4 & _).
  destruct (length (p ++ q)) as [|f] eqn:Ef. { exfalso. rewrite app_length in Ef. unfold lenN in *. lia. }
  cbn [rx_loop]. dif E; [rewrite lenN_app in E; lia|]. clear E.
  rewrite (decode_header_first p q rest h Hh Hl Ho).
  unfold rx_tlv, outcome. rewrite Hh.
  assert (Ht : dh_tlv h = dh_len h - dh_ofs h).
  { pose proof (decode_header_region p [] h Hb) as HR. rewrite app_nil_r in HR. specialize (HR Hh Ho). lia. }
  rewrite <- app_assoc. rewrite dropN_app_le by lia. rewrite Ht.
  replace (dh_len h - dh_ofs h) with (lenN (dropN (dh_ofs h) p)) by (rewrite lenN_dropN; lia).
  assert (HL : rx_loop f (dropN (dh_len h) (p ++ q ++ rest)) (lenN (p ++ q) - dh_len h) = rx_loop (length q) (q ++ rest) (lenN q)).
  { rewrite dropN_app' by exact Hl. rewrite lenN_app. replace (lenN p + lenN q - dh_len h) with (lenN q) by lia.
    rewrite app_length in Ef. apply rx_loop_fuel; rewrite ?lenN_app; unfold lenN in *; lia. }
  set (v := dropN (dh_ofs h) p). set (t := hd_type (dh_h h)).
  destruct (in_nul_dec (q ++ rest)) as [Hr|Hr].
  - left. rewrite (decode_tlv_local t v (q ++ rest) [0]) by (cbn; auto).
    pose proof (decode_tlv_safe t v [0] ltac:(cbn; auto)) as Hs.
    destruct (decode_tlv t (v ++ [0]) (lenN v)) as [ies|e|u]; [rewrite HL; reflexivity|rewrite HL; reflexivity|discriminate].
  - pose proof (mono_decode_tlv t (lenN v) (v ++ q ++ rest) [0]) as HM. cbn beta in HM. rewrite <- app_assoc in HM.
    rewrite (decode_tlv_local t v ((q ++ rest) ++ [0]) [0]) in HM by (cbn; auto || (apply in_or_app; right; left; reflexivity)).
    destruct (decode_tlv t (v ++ q ++ rest) (lenN v)) as [ies|e|u] eqn:Ed.
    + left. rewrite HM by (intros; discriminate). rewrite HL. reflexivity.
    + left. rewrite HM by (intros; discriminate). rewrite HL. reflexivity.
    + right. split; [exact Hr|]. rewrite (decode_tlv_oo _ _ _ _ Ed). reflexivity.
Qed.
(* one whose length field does not cover the header *)
Lemma rx_data_short q rest : bytes_ok q -> bytes_ok rest -> lenN q + lenN rest <= 65536 -> short_length q ->
  (exists e, rx_data q rest = RxDrop e :: rx_data (dropN (announced q) q) rest) \/ rx_data q rest = [RxUB OobRead].
Proof.
  intros Hb Hbr Hlen Hs. destruct Hs as (S1 & S2 & S3).
  assert (S0 : 8 <= hdr_size_of q /\ hdr_size_of q <= 16) by (unfold hdr_size_of; destruct (s_bit q); lia).
  destruct (header_fields q) as (h & Hh & E1 & E2); try lia; [exact S3|].
  assert (Hh' : decode_header (q ++ rest) (lenN q) = Ok h) by (rewrite decode_header_data, <- decode_header_nil; exact Hh).
  pose proof (hdr_of_ok _ _ _ (eq_trans (eq_sym (decode_header_nil q)) Hh)) as (H1 & H2 & H3 & H4 & H5 & _).
  unfold rx_data. destruct (length q) as [|f] eqn:Ef. { exfalso. unfold lenN in *. lia. }
  cbn [rx_loop]. dif E; [lia|]. rewrite Hh'. unfold rx_tlv.
  destruct (decode_tlv _ _ _) as [ies|e|u] eqn:Ed.
  - exfalso. apply decode_tlv_len in Ed; [|apply bytes_ok_dropN, bytes_ok_app; auto].
    rewrite H5, tlv_len_under in Ed by lia. rewrite lenN_dropN, lenN_app in Ed. change (2 ^ 32) with 4294967296 in Ed. lia.
  - left. exists e. f_equal. rewrite dropN_app_le by lia. rewrite E1, lenN_dropN.
    apply rx_loop_fuel; rewrite ?lenN_app, ?lenN_dropN; unfold dropN; rewrite ?skipn_length; unfold lenN in *; lia.
  - right. rewrite (decode_tlv_oo _ _ _ _ Ed). reflexivity.
Qed.
Lemma rx_data_bad q rest : q <> [] -> bad_header q -> exists e, rx_data q rest = [RxBad e].
Proof.
  intros Hq H. apply err_bad_header in H as (e & He). exists e. unfold rx_data.
  destruct q as [|b q']; [congruence|]. cbn [length rx_loop]. dif X; [rewrite lenN_cons in X; lia|].
  rewrite decode_header_data, <- decode_header_nil, He. reflexivity.
Qed.
(* every byte string starts with a complete message, or has a bad header, or a length that does not cover the header *)
Lemma split_datagram d : d <> [] -> bad_header d \/ short_length d \/ exists p q, d = p ++ q /\ framed p.
Proof.
  intros Hd. destruct (decode_header d (lenN d)) as [h|e|u] eqn:E.
  - assert (E' := E). rewrite decode_header_nil in E'. pose proof (hdr_of_ok _ _ _ E') as (H1 & H2 & H3 & H4 & H5 & H6 & H7).
    destruct (N.ltb_spec (dh_len h) (dh_ofs h)) as [Hu|Hu].
    + right. left. apply undersized_short. exists h. auto.
    + right. right. exists (takeN (dh_len h) d), (dropN (dh_len h) d). split; [symmetry; apply takeN_dropN|].
      set (p := takeN (dh_len h) d). assert (Hlp : lenN p = dh_len h) by (apply lenN_takeN; exact H2).
      assert (Hb : ~ bad_header d) by (intros Hb; apply err_bad_header in Hb as (e & He); congruence).
      unfold bad_header in Hb. rewrite <- announced_eq in Hb by lia.
      assert (HS : s_bit p = s_bit d) by (unfold s_bit, p; rewrite nth_takeN by lia; reflexivity).
      assert (HM : mp_bit p = mp_bit d) by (unfold mp_bit, p; rewrite nth_takeN by lia; reflexivity).
      assert (HZ : hdr_size_of d = dh_ofs h) by (rewrite H6, flag1; reflexivity).
      split; [|split].
      * unfold hdr_size_of in *. rewrite HS. lia.
      * rewrite <- announced_eq by lia. unfold p. rewrite dropN_takeN by lia.
        unfold takeN. rewrite firstn_firstn. replace (Nat.min (N.to_nat 2) (N.to_nat (dh_len h - 2))) with (N.to_nat 2) by lia.
        fold (takeN 2 (dropN 2 d)). fold (takeN (dh_len h) d). fold p. lia.
      * rewrite HS, HM. intros X. destruct (s_bit d) eqn:Y; [reflexivity|]. exfalso. apply Hb. auto.
  - left. apply err_bad_header. eauto.
  - exfalso. rewrite decode_header_nil in E. eapply hdr_of_no_ub, E.
Qed.

Lemma rx_data_received n : forall d rest, (length d <= n)%nat -> bytes_ok d -> bytes_ok rest -> lenN d + lenN rest <= 65536 ->
  received (if in_nul_dec rest then true else false) d (rx_data d rest).
Proof.
  induction n as [|n IH]; intros d rest Hn Hb Hbr Hlen.
  - destruct d; [|cbn in Hn; lia]. apply rc_nil.
  - destruct (list_eq_dec N.eq_dec d []) as [->|Hd]; [apply rc_nil|].
    destruct (split_datagram d Hd) as [H|[H|(p & q & -> & H)]].
    + destruct (rx_data_bad d rest Hd H) as (e & ->). apply rc_bad; assumption.
    + assert (Ha : 4 <= announced d) by (unfold announced; lia).
      assert (Hdl : 8 <= lenN d) by (destruct H as (H & _); unfold hdr_size_of in H; destruct (s_bit d); lia).
      destruct (rx_data_short d rest Hb Hbr Hlen H) as [(e & ->)| ->]; [|apply rc_short_overread; exact H].
      apply rc_short_dropped; [exact H|]. apply IH; [| |exact Hbr|].
      * unfold dropN. rewrite skipn_length. unfold lenN in *. lia.
      * apply bytes_ok_dropN, Hb.
      * rewrite lenN_dropN. lia.
    + apply bytes_ok_app in Hb as [Hbp Hbq].
      assert (Hp : 8 <= lenN p) by (destruct H as (H & _); unfold hdr_size_of in H; destruct (s_bit p); lia).
      assert (IHq : received (if in_nul_dec rest then true else false) q (rx_data q rest)).
      { apply IH; [|exact Hbq|exact Hbr|]; rewrite ?app_length, ?lenN_app in *; unfold lenN in *; lia. }
      destruct (rx_data_framed p q rest Hbp H) as [->|[Hz ->]]; [apply rc_msg; assumption|].
      destruct (in_nul_dec rest) as [Hr|Hr]; [exfalso; apply Hz, in_or_app; auto|].
      apply rc_unterminated; [reflexivity|exact H|]. intros X. apply Hz, in_or_app. auto.
Qed.
Theorem rx_datagram_received d : bytes_ok d -> received (lenN d <? alloc_size) (takeN alloc_size d) (rx_datagram d).
Proof.
  intros Hb. unfold rx_datagram. set (q := takeN alloc_size d).
  assert (Hlq : lenN q = N.min alloc_size (lenN d)).
  { unfold q. destruct (N.leb_spec alloc_size (lenN d)); [rewrite lenN_takeN by lia; lia|rewrite takeN_all by lia; lia]. }
  pose proof (rx_data_received (length q) q (zeros (N.to_nat (alloc_size - lenN q)))) as H.
  assert (Hlz : lenN (zeros (N.to_nat (alloc_size - lenN q))) = alloc_size - lenN q) by (unfold lenN at 1; rewrite zeros_length; lia).
  specialize (H (Nat.le_refl _) (bytes_ok_takeN _ _ Hb)).
  replace (lenN d <? alloc_size) with (if in_nul_dec (zeros (N.to_nat (alloc_size - lenN q))) then true else false).
  - apply H; [|rewrite Hlz; change alloc_size with 2048 in *; lia].
    clear. induction (N.to_nat (alloc_size - lenN q)) as [|k IH]; [constructor|constructor; [reflexivity|exact IH]].
  - destruct (in_nul_dec _) as [X|X]; symmetry.
    + apply N.ltb_lt. destruct (N.ltb_spec (lenN d) alloc_size) as [Y|Y]; [exact Y|]. exfalso.
      replace (alloc_size - lenN q) with 0 in X by lia. exact X.
    + apply N.ltb_ge. destruct (N.ltb_spec (lenN d) alloc_size) as [Y|Y]; [|exact Y]. exfalso. apply X, in_zeros. lia.
Qed.
(* what is delivered is a complete message of the datagram, decoded from its own octets *)
Lemma received_delivered nul d os h ies : received nul d os -> In (RxMsg h ies) os ->
  exists a p b, d = a ++ p ++ b /\ framed p /\ outcome p = RxMsg h ies.
Proof.
  induction 1 as [|q e Hq Hb|p q os Hp H IH|q e os Hs H IH|q Hs|p q Hn Hp Hz]; intros Hi.
  - destruct Hi.
  - destruct Hi as [X|[]]; discriminate.
  - destruct Hi as [X|X].
    + exists [], p, q. auto.
    + destruct (IH X) as (a & p' & b & -> & H1 & H2). exists (p ++ a), p', b. rewrite <- app_assoc. auto.
  - destruct Hi as [X|X]; [discriminate|]. destruct (IH X) as (a & p' & b & Hd & H1 & H2).
    exists (takeN (announced q) q ++ a), p', b. rewrite <- app_assoc, <- Hd, takeN_dropN. auto.
  - destruct Hi as [X|[]]; discriminate.
  - destruct Hi as [X|[]]; discriminate.
Qed.
Theorem rx_datagram_delivered d h ies : bytes_ok d -> In (RxMsg h ies) (rx_datagram d) ->
  exists a p b, takeN alloc_size d = a ++ p ++ b /\ framed p /\ outcome p = RxMsg h ies.
Proof. intros Hb H. exact (received_delivered _ _ _ _ _ (rx_datagram_received d Hb) H). Qed.
