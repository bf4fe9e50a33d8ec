(* MsgFinalProofs.v -- the message level properties in their final form *)
From Verif Require Import Base BaseProofs GtlvModel DecEncModel DecEncSpec IesModel IesSpec IesProofs TablesModel MsgModel
  MsgSpec MsgProofs MsgEncProofs RxProofs TermProofs SizeProofs.

Lemma encoded_header m h ies m' : lenN (mb_buf m) <= mb_cap m -> valid_hdr h -> msg_encode m h ies = MOk m' ->
  exists prev msg, mb_buf m' = prev ++ msg /\ lenN prev = lenN (mb_buf m) /\
    decode_header msg (lenN msg) = Ok (mkDh h (lenN msg) (hdr_len h) (lenN msg - hdr_len h)) /\ hdr_len h <= lenN msg.
Proof.
  intros Hc Hh H. destruct (msg_encode_ok _ _ _ _ Hc H) as (bs & _ & Hl & -> & _).
  exists (old_buf m), (hdr_bytes h (hdr_len h - 4 + lenN bs) ++ bs). split; [reflexivity|]. split; [apply old_buf_len|].
  assert (Hhl : hdr_len h = 8 \/ hdr_len h = 16) by (unfold hdr_len; destruct (hd_seid h); auto).
  rewrite hdr_bytes_wire by (try assumption; lia).
  replace (hdr_len h - 4 + lenN bs - (hdr_len h - 4)) with (lenN bs) by lia.
  rewrite lenN_app, wire_hdr_len. rewrite decode_header_wire by (try assumption; lia).
  replace (hdr_len h + lenN bs - hdr_len h) with (lenN bs) by lia. split; [reflexivity|lia].
Qed.

Lemma encoded_length m h ies m' : lenN (mb_buf m) <= mb_cap m -> msg_encode m h ies = MOk m' ->
  exists prev msg, mb_buf m' = prev ++ msg /\ lenN prev = lenN (mb_buf m) /\ announced msg = lenN msg /\ hdr_len h <= lenN msg
    /\ lenN (mb_buf m') <= mb_cap m.
Proof.
  intros Hc H. destruct (msg_encode_ok _ _ _ _ Hc H) as (bs & _ & Hl & -> & Hcap & _).
  exists (old_buf m), (hdr_bytes h (hdr_len h - 4 + lenN bs) ++ bs). split; [reflexivity|]. split; [apply old_buf_len|].
  assert (Hhl : hdr_len h = 8 \/ hdr_len h = 16) by (unfold hdr_len; destruct (hd_seid h); auto).
  split; [|split; [rewrite lenN_app, hdr_bytes_len; lia|exact Hcap]].
  rewrite lenN_app, hdr_bytes_len. unfold announced. rewrite hdr_bytes_eq. unfold hdr_first.
  cbn [be_put app nth]. set (n := hdr_len h - 4 + lenN bs) in *. lia.
Qed.

Lemma old_buf_eq m : old_buf m = mb_buf m \/ exists o, mb_l4 m = Some o /\ o < lenN (mb_buf m) /\ old_buf m = set_follow_on (mb_buf m) o.
Proof.
  unfold old_buf. destruct (mb_l4 m) as [o|]; [|auto]. destruct (o <? lenN (mb_buf m)) eqn:E; [right; exists o; repeat split; lia|auto].
Qed.
Lemma set_follow_on_nth buf o i : i <> N.to_nat o -> nth_error (set_follow_on buf o) i = nth_error buf i.
Proof.
  intros Hi. unfold set_follow_on. destruct (nth_error buf (N.to_nat o)) as [b|] eqn:E; [|reflexivity].
  unfold overwrite, takeN, dropN. change (lenN [N.lor b 4]) with 1.
  assert (Hl : (N.to_nat o < length buf)%nat) by (apply nth_error_Some; congruence).
  destruct (Nat.lt_ge_cases i (N.to_nat o)) as [H|H].
  - rewrite nth_error_app1 by (rewrite firstn_length; lia). rewrite <- (firstn_skipn (N.to_nat o) buf) at 2.
    rewrite nth_error_app1 by (rewrite firstn_length; lia). reflexivity.
  - rewrite nth_error_app2 by (rewrite firstn_length; lia). rewrite firstn_length.
    replace (Nat.min (N.to_nat o) (length buf)) with (N.to_nat o) by lia.
    destruct (i - N.to_nat o)%nat as [|k] eqn:Ek; [lia|]. cbn [app nth_error].
    rewrite <- (firstn_skipn (N.to_nat (o + 1)) buf) at 2. rewrite nth_error_app2 by (rewrite firstn_length; lia).
    rewrite firstn_length. f_equal. lia.
Qed.
(* whatever the outcome short of an abort, every byte written before stays, except for the FO flag of the previous message *)
Lemma encode_keeps m h ies m' : lenN (mb_buf m) <= mb_cap m ->
  (msg_encode m h ies = MOk m' \/ exists e, msg_encode m h ies = MErr m' e) ->
  forall i, N.of_nat i < lenN (mb_buf m) -> mb_l4 m <> Some (N.of_nat i) -> nth_error (mb_buf m') i = nth_error (mb_buf m) i.
Proof.
  intros Hc H i Hi Hl4.
  assert (exists x, mb_buf m' = old_buf m ++ x) as (x & ->).
  { destruct H as [H|(e & H)]; [|apply (msg_encode_err _ _ _ _ _ Hc H)].
    destruct (msg_encode_ok _ _ _ _ Hc H) as (bs & _ & _ & -> & _). eexists. reflexivity. }
  pose proof (old_buf_len m) as Hol.
  rewrite nth_error_app1 by (unfold lenN in *; lia).
  destruct (old_buf_eq m) as [->|(o & Ho & Hlt & ->)]; [reflexivity|]. apply set_follow_on_nth. intros ->. apply Hl4. rewrite Ho. f_equal. lia.
Qed.

Lemma set_follow_on_at buf o b : nth_error buf (N.to_nat o) = Some b -> nth_error (set_follow_on buf o) (N.to_nat o) = Some (N.lor b 4).
Proof.
  intros E. unfold set_follow_on. rewrite E. unfold overwrite, takeN.
  assert (Hl : (N.to_nat o < length buf)%nat) by (apply nth_error_Some; congruence).
  rewrite nth_error_app2 by (rewrite firstn_length; lia). rewrite firstn_length.
  replace (N.to_nat o - Nat.min (N.to_nat o) (length buf))%nat with O by lia. reflexivity.
Qed.
Lemma encode_keeps_all m h ies m' : lenN (mb_buf m) <= mb_cap m ->
  (msg_encode m h ies = MOk m' \/ exists e, msg_encode m h ies = MErr m' e) ->
  forall i b, nth_error (mb_buf m) i = Some b ->
    nth_error (mb_buf m') i = Some (if match mb_l4 m with Some o => o =? N.of_nat i | None => false end then N.setbit b 2 else b).
Proof.
  intros Hc H i b Hi.
  assert (Hl : N.of_nat i < lenN (mb_buf m)) by (unfold lenN; assert (i < length (mb_buf m))%nat by (apply nth_error_Some; congruence); lia).
  destruct (match mb_l4 m with Some o => o =? N.of_nat i | None => false end) eqn:E.
  - destruct (mb_l4 m) as [o|] eqn:Eo; [|discriminate]. apply N.eqb_eq in E. subst o.
    assert (exists x, mb_buf m' = old_buf m ++ x) as (x & ->).
    { destruct H as [H|(e & H)]; [|apply (msg_encode_err _ _ _ _ _ Hc H)].
      destruct (msg_encode_ok _ _ _ _ Hc H) as (bs & _ & _ & -> & _). eexists. reflexivity. }
    pose proof (old_buf_len m) as Hol.
    rewrite nth_error_app1 by (unfold lenN in *; lia). unfold old_buf. rewrite Eo. dif X; [|lia].
    pose proof (set_follow_on_at (mb_buf m) (N.of_nat i) b) as HS. rewrite Nnat.Nat2N.id in HS. rewrite HS by exact Hi.
    rewrite N.setbit_spec'. reflexivity.
  - rewrite (encode_keeps m h ies m' Hc H i Hl); [exact Hi|]. intros Y. rewrite Y in E. rewrite N.eqb_refl in E. discriminate.
Qed.

Lemma msg_roundtrip h ies tab : valid_hdr h -> get_msg_coding (hd_type h) = Some tab -> valid_struct tab ies ->
  exists bs, wire_struct tab ies bs
    /\ (hdr_len h + lenN bs <= 65539 -> forall m, lenN (mb_buf m) + hdr_len h + lenN bs <= mb_cap m ->
        exists m' prev, msg_encode m h ies = MOk m' /\ mb_buf m' = prev ++ wire_hdr h false (lenN bs) ++ bs /\ lenN prev = lenN (mb_buf m))
    /\ (hdr_len h + lenN bs <= 65539 -> forall rest, In 0 rest ->
        exists d, decode_header ((wire_hdr h false (lenN bs) ++ bs) ++ rest) (hdr_len h + lenN bs) = Ok d
          /\ dh_h d = h /\ dh_len d = hdr_len h + lenN bs
          /\ decode_tlv (hd_type (dh_h d)) (dropN (dh_ofs d) ((wire_hdr h false (lenN bs) ++ bs) ++ rest)) (dh_tlv d) = Ok ies).
Proof.
  intros Hh Ht Hv. destruct (wire_struct_exists tab ies Hv) as (bs & Hw). exists bs. split; [exact Hw|].
  assert (Hhl : hdr_len h = 8 \/ hdr_len h = 16) by (unfold hdr_len; destruct (hd_seid h); auto).
  split.
  - intros Hl m Hm. exists (mkMsgb (old_buf m ++ wire_hdr h false (lenN bs) ++ bs) (mb_cap m) (Some (l3_of m)) (Some (lenN (mb_buf m)))), (old_buf m).
    split; [|split; [reflexivity|apply old_buf_len]].
    apply (msg_encode_wire m h ies bs); [|exact Hm]. split; [exact Hh|]. exists tab. repeat split; try assumption. lia.
  - intros Hl rest Hr. exists (mkDh h (hdr_len h + lenN bs) (hdr_len h) (lenN bs)). rewrite <- app_assoc.
    split; [apply decode_header_wire; try assumption; lia|]. split; [reflexivity|]. split; [reflexivity|]. cbn [dh_h dh_ofs dh_tlv].
    rewrite dropN_app' by (rewrite wire_hdr_len; reflexivity).
    apply (decode_tlv_wire _ tab); try assumption. lia.
Qed.

(* ---------------------------------------------------------------- received bytes *)

Lemma flag1 b : flag b 1 = N.testbit b 0.
Proof.
  unfold flag. destruct (N.eqb_spec (N.land b 1) 0) as [E|E]; destruct (N.testbit b 0) eqn:T; try reflexivity; exfalso.
  - assert (X : N.testbit (N.land b 1) 0 = true) by (rewrite N.land_spec, T; reflexivity). rewrite E in X. discriminate.
  - apply E, N.bits_inj. intros [|n]; rewrite N.land_spec; [rewrite T; reflexivity|]. rewrite N.bits_0. destruct n; apply andb_false_r.
Qed.
Lemma flag2 b : flag b 2 = N.testbit b 1.
Proof.
  unfold flag. destruct (N.eqb_spec (N.land b 2) 0) as [E|E]; destruct (N.testbit b 1) eqn:T; try reflexivity; exfalso.
  - assert (X : N.testbit (N.land b 2) 1 = true) by (rewrite N.land_spec, T; reflexivity). rewrite E in X. discriminate.
  - apply E, N.bits_inj. intros [|[n|n|]]; rewrite N.land_spec, N.bits_0; try apply andb_false_r. rewrite T. reflexivity.
Qed.
Lemma announced_eq q : 4 <= lenN q -> be_get (takeN 2 (dropN 2 q)) + 4 = announced q.
Proof.
  intros H. destruct q as [|a [|b [|c [|d q]]]]; try (unfold lenN in H; cbn in H; lia).
  unfold announced. change (takeN 2 (dropN 2 (a :: b :: c :: d :: q))) with [c; d]. unfold be_get. cbn [be_get_acc nth]. lia.
Qed.
Lemma header_dec q : decode_header q (lenN q) =
  if lenN q <? 4 then Err EINVAL else if lenN q <? hdr_size_of q then Err EINVAL else if lenN q <? announced q then Err EMSGSIZE
  else if mp_bit q && negb (s_bit q) then Err EINVAL else decode_header q (lenN q).
Proof.
  rewrite decode_header_nil. unfold hdr_of. rewrite flag1, flag2. fold (s_bit q) (mp_bit q). unfold hdr_size. fold (hdr_size_of q).
  destruct (lenN q <? 4) eqn:E; [reflexivity|]. rewrite announced_eq by lia.
  destruct (lenN q <? hdr_size_of q); [reflexivity|]. destruct (lenN q <? announced q); [reflexivity|].
  destruct (s_bit q), (mp_bit q); reflexivity.
Qed.
Lemma header_fields q : 4 <= lenN q -> hdr_size_of q <= lenN q -> announced q <= lenN q -> (mp_bit q = true -> s_bit q = true) ->
  exists d, decode_header q (lenN q) = Ok d /\ dh_len d = announced q /\ dh_ofs d = hdr_size_of q.
Proof.
  intros H4 Hs Ha Hm. rewrite decode_header_nil. unfold hdr_of. rewrite flag1, flag2. fold (s_bit q) (mp_bit q). unfold hdr_size. fold (hdr_size_of q).
  rewrite announced_eq by lia. dif E1; [lia|]. dif E2; [lia|]. dif E3; [lia|].
  destruct (s_bit q) eqn:ES; cbn [negb]; [eexists; repeat split; unfold hdr_size_of; rewrite ES; reflexivity|].
  destruct (mp_bit q); [discriminate Hm; reflexivity|]. eexists; repeat split; unfold hdr_size_of; rewrite ES; reflexivity.
Qed.
Lemma message_framed p : message p <-> framed p.
Proof.
  unfold message, framed. split.
  - intros (d & H & Hl & Ho). assert (H' := H). rewrite header_dec in H'. dif_in H' E1; [discriminate|]. dif_in H' E2; [discriminate|].
    dif_in H' E3; [discriminate|]. destruct (mp_bit p && negb (s_bit p)) eqn:E4; [discriminate|].
    assert (Hm : mp_bit p = true -> s_bit p = true) by (destruct (mp_bit p), (s_bit p); auto; discriminate).
    destruct (header_fields p) as (d' & Hd & H1 & H2); try lia; [exact Hm|]. rewrite H in Hd. injection Hd as <-.
    repeat split; [lia|lia|exact Hm].
  - intros (Hs & Ha & Hm). assert (8 <= hdr_size_of p) by (unfold hdr_size_of; destruct (s_bit p); lia).
    destruct (header_fields p) as (d & Hd & H1 & H2); try lia; [exact Hm|]. exists d. repeat split; [exact Hd|lia|lia].
Qed.
Lemma err_bad_header q : (exists e, decode_header q (lenN q) = Err e) <-> bad_header q.
Proof.
  unfold bad_header. split.
  - intros (e & H). assert (H' := H). rewrite header_dec in H'. dif_in H' E1; [lia|]. dif_in H' E2; [lia|]. dif_in H' E3; [lia|].
    destruct (mp_bit q && negb (s_bit q)) eqn:E4; [right; right; right; destruct (mp_bit q), (s_bit q); auto; discriminate|].
    assert (Hm : mp_bit q = true -> s_bit q = true) by (destruct (mp_bit q), (s_bit q); auto; discriminate).
    destruct (header_fields q) as (d' & Hd & H1 & H2); try lia; [exact Hm|]. congruence.
  - intros H. rewrite header_dec. dif E1; [eauto|]. dif E2; [eauto|]. dif E3; [eauto|].
    destruct H as [H|[H|[H|[H1 H2]]]]; try lia. rewrite H1, H2. cbn. eauto.
Qed.
Lemma undersized_short q : undersized q <-> short_length q.
Proof.
  unfold undersized, short_length. split.
  - intros (d & H & Hl). assert (H' := H). rewrite header_dec in H'. dif_in H' E1; [discriminate|]. dif_in H' E2; [discriminate|].
    dif_in H' E3; [discriminate|]. destruct (mp_bit q && negb (s_bit q)) eqn:E4; [discriminate|].
    assert (Hm : mp_bit q = true -> s_bit q = true) by (destruct (mp_bit q), (s_bit q); auto; discriminate).
    destruct (header_fields q) as (d' & Hd & H1 & H2); try lia; [exact Hm|]. rewrite H in Hd. injection Hd as <-.
    repeat split; [lia|lia|exact Hm].
  - intros (Hs & Ha & Hm). assert (8 <= hdr_size_of q) by (unfold hdr_size_of; destruct (s_bit q); lia).
    destruct (header_fields q) as (d & Hd & H1 & H2); try lia; [exact Hm|]. exists d. split; [exact Hd|lia].
Qed.

(* header decoding: fails exactly for a bad header, reads nothing outside of the data, and tells lengths within it *)
Lemma header_decode_spec q rest : bytes_ok q ->
  (bad_header q -> exists e, decode_header (q ++ rest) (lenN q) = Err e)
  /\ (~ bad_header q -> exists d, decode_header (q ++ rest) (lenN q) = Ok d /\ dh_len d = announced q /\ announced q <= lenN q
        /\ dh_ofs d = hdr_size_of q /\ hdr_size_of q <= lenN q
        /\ (hdr_size_of q <= announced q -> dh_ofs d + dh_tlv d = dh_len d)).
Proof.
  intros Hb. pose proof (decode_header_data q rest) as HE. rewrite <- decode_header_nil in HE. split; intros H.
  - rewrite HE. apply err_bad_header. exact H.
  - assert (Hs : 8 <= hdr_size_of q) by (unfold hdr_size_of; destruct (s_bit q); lia). unfold bad_header in H.
    assert (Hm : mp_bit q = true -> s_bit q = true) by (destruct (mp_bit q), (s_bit q); auto; intros; exfalso; apply H; auto).
    destruct (header_fields q) as (d & Hd & H1 & H2); try lia; [exact Hm|]. exists d.
    split; [rewrite HE; exact Hd|]. repeat split; try lia. intros Hle.
    apply (decode_header_region q rest d Hb); [rewrite HE; exact Hd|lia].
Qed.

Lemma rx_datagram_structure d : bytes_ok d -> lenN d < alloc_size ->
  exists ps q, d = concat ps ++ q /\ Forall framed ps
    /\ ((q = [] /\ rx_datagram d = map outcome ps)
        \/ (q <> [] /\ bad_header q /\ exists e, rx_datagram d = map outcome ps ++ [RxBad e])
        \/ (short_length q /\ exists tail, rx_datagram d = map outcome ps ++ tail)).
Proof.
  intros Hb Hl. unfold rx_datagram. rewrite takeN_all by lia.
  destruct (rx_data_structure (length d) d (zeros (N.to_nat (alloc_size - lenN d)))) as (ps & q & -> & Hps & H);
    [lia|apply in_zeros; lia|exact Hb|].
  exists ps, q. split; [reflexivity|]. split; [eapply Forall_impl; [|exact Hps]; intros p; apply message_framed|].
  destruct H as [(-> & ->)|[(e & He & Hq & ->)|(Hu & ->)]].
  - left. split; reflexivity.
  - right. left. split; [exact Hq|]. split; [apply err_bad_header; eauto|]. exists e. reflexivity.
  - right. right. split; [apply undersized_short; exact Hu|]. eexists. reflexivity.
Qed.
Lemma outcome_framed p : framed p -> (exists h ies, outcome p = RxMsg h ies) \/ (exists e, outcome p = RxDrop e).
Proof. intros H. apply outcome_good, message_framed, H. Qed.
Lemma rx_datagram_messages ps : Forall framed ps -> Forall bytes_ok ps -> lenN (concat ps) < alloc_size -> rx_datagram (concat ps) = map outcome ps.
Proof.
  intros H Hb Hl. unfold rx_datagram. rewrite takeN_all by lia.
  assert (Hr : In 0 (zeros (N.to_nat (alloc_size - lenN (concat ps))))) by (apply in_zeros; lia).
  revert Hr. generalize (zeros (N.to_nat (alloc_size - lenN (concat ps)))). intros rest Hr. clear Hl.
  induction H as [|p ps Hp H IH]; [reflexivity|]. inversion Hb; subst. cbn [concat map].
  rewrite rx_data_message; [|exact Hr|assumption|apply message_framed; exact Hp]. rewrite IH by assumption. reflexivity.
Qed.

(* ---------------------------------------------------------------- allocation *)

Lemma is_response_spec t : is_response t = true <-> (t = 11 \/ exists r, In (r, t) req_resp).
Proof.
  unfold is_response, req_resp. rewrite existsb_exists. split.
  - intros (x & Hx & E). apply N.eqb_eq in E. subst x. cbn in Hx.
    repeat (destruct Hx as [<-|Hx]; [first [left; reflexivity | right; eexists; cbn; tauto]|]). contradiction.
  - intros H. exists t. split; [|apply N.eqb_refl]. destruct H as [->|(r & H)]; [cbn; tauto|]. cbn in H.
    repeat (destruct H as [H|H]; [injection H as <- <-; cbn; tauto|]). contradiction.
Qed.
Lemma alloc_tx_spec remote reply t : (remote <> None \/ reply <> None) ->
  exists m, msg_alloc_tx remote reply t = Ok m /\ m_rx m = false /\ m_resp m = is_response t /\ hd_type (m_h m) = t
    /\ hd_version (m_h m) = 1 /\ hd_seid (m_h m) = None /\ hd_prio (m_h m) = None /\ m_ies m = []
    /\ hd_seq (m_h m) = match reply with Some r => hd_seq (m_h r) | None => 0 end
    /\ Some (m_remote m) = match remote with Some a => Some a | None => option_map m_remote reply end.
Proof.
  intros H. unfold msg_alloc_tx. destruct remote as [a|]; [|destruct reply as [r|]; [|destruct H; congruence]];
  eexists; (split; [reflexivity|]); repeat split.
Qed.
