(* TermProofs.v -- unordered decoding and the receive loop end for every memory and every (even wrong) length: the model's
   step budgets are never used up *)
From Verif Require Import Base BaseProofs GtlvModel GtlvSpec DecEncModel DecEncSpec DecEncProofs CStr IesModel IesProofs
  TablesModel MsgModel MsgSpec MsgProofs RxProofs.

Definition nf {A} (x : res A) : Prop := x <> UB OutOfFuel.
Lemma nf_bind {A B} (x : res A) (f : A -> res B) : nf x -> (forall a, nf (f a)) -> nf (bind x f).
Proof. intros Hx Hf. destruct x as [a|e|u]; cbn; [apply Hf|discriminate|intros [= ->]; apply Hx; reflexivity]. Qed.
Ltac nf_step := match goal with
  | |- nf (bind _ _) => apply nf_bind; [|intros ?]
  | |- nf (if ?b then _ else _) => destruct b
  | |- nf (match ?x with _ => _ end) => destruct x
  | |- nf (Ok _) => discriminate
  | |- nf (Err _) => discriminate
  | |- nf (UB _) => discriminate
  end.
Ltac nf_tac := cbv zeta; repeat nf_step; auto.

Lemma nf_rdN n m : nf (rdN n m). Proof. unfold rdN. nf_tac. Qed.
Lemma nf_rd_be n m : nf (rd_be n m). Proof. unfold rd_be. nf_tac. apply nf_rdN. Qed.
Lemma nf_at_ofs m o n : nf (at_ofs m o n). Proof. apply nf_rdN. Qed.
Lemma nf_take m l o n : nf (take m l o n). Proof. unfold take. nf_tac. apply nf_at_ofs. Qed.
Lemma nf_bits_get b p : nf (bits_get b p). Proof. unfold bits_get. nf_tac. Qed.

Lemma nf_apn fuel : forall m rest, rest < N.of_nat fuel -> nf (apn_to_str fuel m rest).
Proof.
  induction fuel as [|f IH]; intros m rest H; [lia|]. cbn [apn_to_str]. destruct (rest =? 0) eqn:E; [discriminate|].
  destruct m as [|lab m]; [discriminate|]. destruct (lab =? 0) eqn:E2; [discriminate|]. destruct (rest <? lab + 1) eqn:E3; [discriminate|].
  apply nf_bind; [apply nf_rdN|]. intros l. cbv zeta. apply nf_bind; [apply IH; lia|]. intros [s|]; discriminate.
Qed.
Lemma nf_dec_name m len mx : nf (dec_name m len mx).
Proof. unfold dec_name. nf_tac; try (apply nf_apn; unfold lenN; lia). Qed.

Lemma nf_strlen m : nf (c_strlen m).
Proof. induction m as [|b m IH]; cbn [c_strlen]; nf_tac. Qed.
Lemma nf_strlcpy m n : nf (osmo_strlcpy m n).
Proof. unfold osmo_strlcpy. nf_tac. apply nf_strlen. Qed.
#[local] Hint Resolve nf_strlen nf_strlcpy nf_rdN nf_rd_be nf_at_ofs nf_take nf_bits_get nf_dec_name : core.
Lemma nf_dec_of k m len : nf (dec_of k m len).
Proof.
  destruct k; cbn [dec_of];
  unfold dec_cause, dec_offending_ie, dec_8, dec_16be, dec_32be, dec_3gpp_iface_type, dec_iface, dec_node_id, dec_up_ff, dec_cp_ff,
    dec_f_seid, dec_f_teid, dec_apply_action, dec_network_inst, dec_ohc, dec_act_predef, dec_ohr, dec_ue_ip, oh_bits, dec_bits_padded, dec_addrs, dec_opt; nf_tac.
Qed.

Lemma nf_place c es : Forall (fun e : entry iev => forall m len, nf (e_dec e c false m len)) es -> forall idx allowed slots ti m len,
  nf (place c es idx allowed slots ti m len).
Proof.
  intros H. induction H as [|e es He H IH]; intros idx allowed slots ti m len; destruct slots as [|s slots]; cbn [place]; nf_tac.
Qed.
Lemma nf_check_mand (es : list (entry iev)) : forall idx slots, nf (check_mand idx es slots).
Proof. induction es as [|e es IH]; intros idx [|s slots]; cbn [check_mand]; nf_tac. Qed.

Definition pos_of (g : load) : N := match ld_val g with None => 0 | Some v => v + ld_len g end.
Lemma load_next_t16 g g' : load_next t16l16v g = (g', Ok tt) -> ld_val g' <> None ->
  ld_mem g' = ld_mem g /\ ld_srclen g' = ld_srclen g /\ pos_of g + 4 <= N.min (ld_srclen g) (lenN (ld_mem g)) /\ pos_of g + 4 <= pos_of g'.
Proof.
  unfold load_next, next_tl_valid. fold (pos_of g). intros H Hv.
  destruct (ld_srclen g <? pos_of g) eqn:E1; [discriminate|].
  match type of H with context [if ?b then _ else _] => destruct b end; [discriminate|].
  match type of H with context [if ?b then _ else _] => destruct b end; [injection H as <-; cbn in Hv; congruence|].
  cbn [cfg_load t16l16v] in H. unfold t16l16v_load in H.
  destruct (dropN (pos_of g) (ld_mem g)) as [|a [|b [|x [|y l]]]] eqn:Ed; try discriminate.
  match type of H with context [if ?b then _ else _] => destruct b eqn:E4 end; [discriminate|].
  injection H as <-. cbn [ld_mem ld_srclen]. unfold pos_of at 3. cbn [ld_val ld_len].
  pose proof (f_equal (@length N) Ed) as Hl. unfold dropN in Hl. rewrite skipn_length in Hl. cbn [length] in Hl.
  unfold lenN. repeat split; lia.
Qed.
Lemma load_next_t16_nf g g' : load_next t16l16v g <> (g', UB OutOfFuel).
Proof.
  unfold load_next, next_tl_valid. cbn [cfg_load t16l16v]. unfold t16l16v_load.
  repeat match goal with |- context [if ?b then _ else _] => destruct b end; try discriminate.
  destruct (dropN _ (ld_mem g)) as [|a [|b [|x [|y l]]]]; try discriminate.
  repeat match goal with |- context [if ?b then _ else _] => destruct b end; discriminate.
Qed.
Lemma nf_unord_loop es : Forall (fun e : entry iev => forall m len, nf (e_dec e t16l16v false m len)) es -> forall fuel g slots,
  (1 <= fuel)%nat ->
  (pos_of g <= N.min (ld_srclen g) (lenN (ld_mem g)) -> N.min (ld_srclen g) (lenN (ld_mem g)) + 1 <= pos_of g + N.of_nat fuel) ->
  nf (unord_loop fuel t16l16v es g slots).
Proof.
  intros H. induction fuel as [|f IH]; intros g slots H1 H2; [lia|]. cbn [unord_loop].
  destruct (load_next t16l16v g) as [g' [[]|e|u]] eqn:E; [|discriminate|intros [= ->]; exact (load_next_t16_nf _ _ E)].
  destruct (ld_val g') as [v|] eqn:Ev; [|discriminate].
  destruct (load_next_t16 g g' E) as (Hm & Hs & Hp & Hp'); [congruence|].
  apply nf_bind; [apply nf_place; exact H|]. intros sl. apply IH; rewrite ?Hm, ?Hs; lia.
Qed.
Lemma nf_decode_unordered es m n : Forall (fun e : entry iev => forall m len, nf (e_dec e t16l16v false m len)) es ->
  nf (decode_unordered t16l16v es m n).
Proof.
  intros H. unfold decode_unordered. apply nf_bind.
  - apply nf_unord_loop; [exact H|unfold budget; lia|]. cbn [load_start pos_of ld_val ld_srclen ld_mem]. unfold budget. lia.
  - intros sl. apply nf_bind; [apply nf_check_mand|]. intros _. discriminate.
Qed.
Lemma nf_ptab p : forall m len, nf (dec_coding (ptab p) t16l16v false m len).
Proof.
  induction p as [h k|h ies IH] using pcoding_ind'; intros m len.
  - cbn [ptab dec_coding]. unfold leaf_of. cbn [lf_dec]. nf_tac. apply nf_dec_of.
  - cbn [ptab dec_coding]. apply nf_bind; [|discriminate]. unfold decode_entries. rewrite map_map.
    apply nf_decode_unordered. apply Forall_map. cbn [e_dec]. exact IH.
Qed.
Theorem decode_tlv_terminates t m n : decode_tlv t m n <> UB OutOfFuel.
Proof.
  unfold decode_tlv, msg_table. destruct (get_msg_coding t) as [ies|]; [|discriminate]. cbn [option_map gtlvs_decode].
  unfold decode_entries. rewrite map_map. apply nf_decode_unordered, Forall_map, Forall_forall. intros p _. apply nf_ptab.
Qed.

Lemma rx_loop_terminates fuel : forall m left, left <= N.of_nat fuel -> left <= lenN m -> ~ In (RxUB OutOfFuel) (rx_loop fuel m left).
Proof.
  induction fuel as [|f IH]; intros m left H1 H2; cbn [rx_loop].
  - assert (left = 0) as -> by lia. intros [].
  - destruct (left =? 0) eqn:E; [intros []|].
    pose proof (takeN_dropN left m) as Em. pose proof (lenN_takeN left m H2) as Hl.
    assert (Hh : forall d, decode_header m left = Ok d -> 4 <= dh_len d /\ dh_len d <= left).
    { intros d Hd. rewrite <- Em in Hd. rewrite <- Hl in Hd at 3. destruct (decode_header_inside _ _ _ Hd). lia. }
    assert (Hu : forall u, decode_header m left <> UB u).
    { intros u. rewrite <- Em. rewrite <- Hl at 3. apply decode_header_safe. }
    clear Em.
    destruct (decode_header m left) as [d|e|u] eqn:Eh.
    + destruct (Hh _ eq_refl) as [Ha Hb].
      assert (Hi : ~ In (RxUB OutOfFuel) (rx_loop f (dropN (dh_len d) m) (left - dh_len d))).
      { apply IH; [lia|]. unfold lenN, dropN in *. rewrite skipn_length. lia. }
      destruct (rx_tlv d m) as [h ies|e|e|u] eqn:Et; try (intros [A|A]; [discriminate|exact (Hi A)]).
      intros [A|[]]. injection A as ->. unfold rx_tlv in Et.
      destruct (decode_tlv _ _ _) as [x|e|u] eqn:Ed in Et; try discriminate. injection Et as ->.
      exact (decode_tlv_terminates _ _ _ Ed).
    + intros [A|[]]. discriminate.
    + exfalso. exact (Hu _ eq_refl).
Qed.
Theorem rx_datagram_terminates d : ~ In (RxUB OutOfFuel) (rx_datagram d).
Proof.
  unfold rx_datagram, rx_data. apply rx_loop_terminates; unfold lenN; rewrite ?app_length; lia.
Qed.
