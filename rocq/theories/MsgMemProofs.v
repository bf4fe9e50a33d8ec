(* MsgMemProofs.v -- whole messages in memory (MsgMemModel.v): proofs for PropertiesMsgMem.v *)
From Verif Require Import Base BaseProofs GtlvModel DecEncModel DecEncSpec IesModel IesSpec TablesModel MsgModel MsgSpec MsgProofs MsgFinalProofs StrModel MemModel MemSpec GenModel GenPfcp PfcpMem PfcpMemFinal
  IeMemModel IeMemSpec IeEncModel IeEncSpec IeMsgModel IeMsgSpec IeMsgProofs HdrMemModel HdrMemSpec HdrMemProofs HdrMemLemmas PropertiesIeMsg RxProofs MsgEncProofs MsgMemModel MsgMemSpec.

Section Host.
Variables (te : tenv) (r : generated) (be : bool) (sa_img : sa -> list N) (sa_rd : list N -> sa) (T : texts).
Hypothesis HH : abi_and_headers te r sa_img sa_rd.
Let lk := cc_lk te be sa_img sa_rd T.

Lemma mm_encode_eq b h dm slots : union_ends te be sa_rd r lk (hd_type h) dm slots ->
  mm_msg_encode te r be sa_img sa_rd T b h dm = c_msg_encode be b h slots.
Proof.
  intros U. unfold mm_msg_encode, c_msg_encode, mm_encode_tlv. destruct (c_follow_on be b (cm_mem b)) as [mem0 [x|e|u]]; try reflexivity.
  all: cbv zeta; destruct (_ <? _); [reflexivity|]; destruct (c_store_header be (cm_tail b) h mem0) as [mem1 [y|e'|u']]; try reflexivity;
    rewrite (C108_encode te r be sa_img sa_rd T (hd_type h) dm slots _ _ HH U); reflexivity.
Qed.
Lemma mm_decode_eq m data_len dm : bytes_ok m -> data_len <= lenN m -> lenN dm = gen_union_size pfcp_cfg r -> Forall (fun x => x = 0) dm ->
  match decode_header m data_len with
  | Err e => mm_msg_decode te r be sa_img sa_rd T m data_len dm = (dm, Err e)
  | UB u => mm_msg_decode te r be sa_img sa_rd T m data_len dm = (dm, UB u)
  | Ok d => forall body rest, dropN (dh_ofs d) m = (body ++ rest)%list -> lenN body = dh_tlv d -> In 0 rest ->
    match decode_tlv (hd_type (dh_h d)) (body ++ rest) (dh_tlv d) with
    | Ok slots => exists dm', mm_msg_decode te r be sa_img sa_rd T m data_len dm = (dm', Ok d)
        /\ union_holds r lk (c_ld te be sa_rd) be (hd_type (dh_h d)) dm' slots /\ union_ends te be sa_rd r lk (hd_type (dh_h d)) dm' slots
    | Err e => exists dm', mm_msg_decode te r be sa_img sa_rd T m data_len dm = (dm', Err e)
    | UB u => False
    end
  end.
Proof.
  intros HB HL HD HZ. unfold mm_msg_decode. rewrite decode_in_memory by assumption. destruct (decode_header m data_len) as [d|e|u] eqn:E; try reflexivity.
  intros body rest EB LB HR. unfold mm_decode_tlv. rewrite EB, <- LB.
  assert (HBB : bytes_ok (body ++ rest)). { rewrite <- EB. unfold bytes_ok in *. apply Forall_dropN. exact HB. }
  pose proof (C108_decode te r be sa_img sa_rd T (hd_type (dh_h d)) body rest dm HH HBB HR HD HZ) as G. fold lk in G |- *.
  destruct (decode_tlv (hd_type (dh_h d)) (body ++ rest) (lenN body)) as [slots|e|u].
  - destruct G as (dm' & G & U). rewrite G. exists dm'. split; [reflexivity|exact U].
  - destruct G as (dm' & G & _). rewrite G. exists dm'. reflexivity.
  - exact G.
Qed.
End Host.

(* from the union of one host to the union of another one *)
Lemma hosts_exchange te1 r1 be1 img1 rd1 T1 te2 r2 be2 img2 rd2 T2 h tab slots : abi_and_headers te1 r1 img1 rd1 -> abi_and_headers te2 r2 img2 rd2 ->
  valid_hdr h -> get_msg_coding (hd_type h) = Some tab -> valid_struct tab slots ->
  exists bs, wire_struct tab slots bs
    /\ (hdr_len h + lenN bs <= 65539 -> forall m b dm1,
        holds m b -> bytes_ok (cm_mem b) -> cm_tail b + hdr_len h + lenN bs <= lenN (cm_mem b) ->
        union_holds r1 (cc_lk te1 be1 img1 rd1 T1) (c_ld te1 be1 rd1) be1 (hd_type h) dm1 slots ->
        exists b' q, mm_msg_encode te1 r1 be1 img1 rd1 T1 b h dm1 = COk b' /\ takeN (cm_tail b' - cm_tail b) (dropN (cm_tail b) (cm_mem b')) = q
          /\ lenN q = hdr_len h + lenN bs
          /\ forall rest dm2, In 0 rest -> bytes_ok (q ++ rest) -> lenN dm2 = gen_union_size pfcp_cfg r2 -> Forall (fun x => x = 0) dm2 ->
               exists dm2' d, mm_msg_decode te2 r2 be2 img2 rd2 T2 (q ++ rest) (lenN q) dm2 = (dm2', Ok d) /\ dh_h d = h /\ dh_len d = lenN q
                 /\ union_holds r2 (cc_lk te2 be2 img2 rd2 T2) (c_ld te2 be2 rd2) be2 (hd_type h) dm2' slots).
Proof.
  intros H1 H2 V HT S. destruct (message_exchange be1 be2 h slots tab V HT S) as (bs & W & X). exists bs. split; [exact W|].
  intros L m b dm1 HM HB R U. destruct (X L m b HM HB R) as (b' & q & E & EQ & LQ & D). exists b', q.
  assert (U' : union_ends te1 be1 rd1 r1 (cc_lk te1 be1 img1 rd1 T1) (hd_type h) dm1 slots).
  { destruct H1 as (A1 & A2 & A3 & A4). exact (cc_valid te1 r1 be1 img1 rd1 T1 A1 A2 A3 A4 (hd_type h) tab dm1 slots HT S U). }
  split; [rewrite (mm_encode_eq te1 r1 be1 img1 rd1 T1 H1 b h dm1 slots U'); exact E|]. split; [exact EQ|]. split; [exact LQ|].
  intros rest dm2 HR HBB LD ZD. destruct (D rest HR HBB) as (d & D1 & D2 & D3 & D4).
  rewrite decode_in_memory in D1 by (try exact HBB; rewrite lenN_app; lia).
  pose proof (mm_decode_eq te2 r2 be2 img2 rd2 T2 H2 (q ++ rest)%list (lenN q) dm2 HBB ltac:(rewrite lenN_app; lia) LD ZD) as G. rewrite D1 in G.
  assert (DO : dh_ofs d = hdr_len h /\ dh_tlv d = lenN q - hdr_len h).
  { destruct (encode_exchange be1 be2 m b h slots) with (m' := match msg_encode m h slots with MOk x => x | MErr x _ => x | MUB _ => m end) as (b2 & q2 & F1 & F2 & _ & _ & _ & F3).
    - exact HM.
    - exact HB.
    - exact V.
    - pose proof (encode_in_memory be1 m b h slots HM HB) as EM. cbv zeta in EM. destruct (msg_encode m h slots) as [x|x e|u]; [reflexivity| |]; exfalso.
      + destruct EM as (b2 & EM & _). congruence.
      + congruence.
    - assert (b2 = b') by congruence. subst b2. rewrite <- F2, EQ in F3. specialize (F3 rest HBB).
      rewrite decode_in_memory in F3 by (try exact HBB; rewrite lenN_app; lia). rewrite D1 in F3. injection F3 as ->. split; reflexivity. }
  destruct DO as [O1 O2]. specialize (G (dropN (hdr_len h) q) rest). rewrite O1 in G. rewrite dropN_app_le in G by lia.
  specialize (G eq_refl). rewrite O2 in G. specialize (G ltac:(rewrite lenN_dropN; lia) HR).
  rewrite O1, O2 in D4. rewrite dropN_app_le in D4 by lia. rewrite D4 in G. destruct G as (dm' & G & U2 & _). exists dm', d. rewrite D2 in U2. auto.
Qed.

(* ---------------------------------------------------------------- receiving *)
Section Rx.
Variables (te : tenv) (r : generated) (be : bool) (sa_img : sa -> list N) (sa_rd : list N -> sa) (T : texts).
Hypothesis HH : abi_and_headers te r sa_img sa_rd.
Notation loop := (mm_rx_loop te r be sa_img sa_rd T).
Notation same := (same_out te r be sa_img sa_rd T).

Lemma mm_loop_fuel f : forall f' m left, left <= N.of_nat f -> left <= N.of_nat f' -> left <= lenN m -> bytes_ok m -> loop f m left = loop f' m left.
Proof.
  induction f as [|f IH]; intros f' m left Hf Hf' Hm HB.
  - assert (left = 0) by lia. subst. destruct f'; reflexivity.
  - destruct f' as [|f']. { assert (left = 0) by lia. subst. reflexivity. }
    cbn [mm_rx_loop]. dif E; [reflexivity|]. rewrite decode_in_memory by assumption.
    destruct (decode_header m left) as [d|e|u] eqn:Ed; try reflexivity.
    pose proof (lenN_takeN left m Hm) as Hlt.
    assert (Ed' : decode_header (takeN left m ++ dropN left m) (lenN (takeN left m)) = Ok d) by (rewrite takeN_dropN, Hlt; exact Ed).
    apply decode_header_inside in Ed' as (H1 & H2 & _). rewrite Hlt in H2.
    rewrite (IH f') by (rewrite ?lenN_dropN; try (apply Forall_dropN; exact HB); lia). reflexivity.
Qed.
Lemma zeros_zero n : Forall (fun x => x = 0) (zeros n).
Proof. induction n; constructor; auto. Qed.
Lemma zeros_len n : length (zeros n) = n.
Proof. induction n; cbn; auto. Qed.
Lemma mm_step p q rest : In 0 rest -> bytes_ok ((p ++ q) ++ rest) -> framed p ->
  exists o, same (outcome p) o /\ loop (length (p ++ q)) ((p ++ q) ++ rest) (lenN (p ++ q)) = o :: loop (length q) (q ++ rest) (lenN q).
Proof.
  intros Hr Hb Hf. pose proof (outcome_framed p Hf) as OF. apply message_framed in Hf. destruct Hf as (h & Hh & Hl & Ho).
  assert (Hbp : bytes_ok p) by (rewrite <- app_assoc in Hb; apply bytes_ok_app in Hb; apply Hb).
  assert (Hbq : bytes_ok (q ++ rest)) by (rewrite <- app_assoc in Hb; apply bytes_ok_app in Hb; apply Hb).
  pose proof (hdr_of_ok _ _ _ (eq_trans (eq_sym (decode_header_nil p)) Hh)) as (H1 & H2 & H3 & H4 & _).
  destruct (length (p ++ q)) as [|f] eqn:Ef. { exfalso. rewrite app_length in Ef. unfold lenN in *. lia. }
  cbn [mm_rx_loop]. dif E; [rewrite lenN_app in E; lia|]. clear E.
  rewrite decode_in_memory by (try exact Hb; rewrite (lenN_app (p ++ q) rest); lia).
  rewrite (decode_header_first p q rest h Hh Hl Ho). unfold outcome in *. rewrite Hh in OF |- *.
  assert (Ht : dh_tlv h = dh_len h - dh_ofs h).
  { pose proof (decode_header_region p [] h Hbp) as HR. rewrite app_nil_r in HR. specialize (HR Hh Ho). lia. }
  rewrite <- app_assoc. rewrite dropN_app_le by lia. rewrite Ht in *.
  set (body := dropN (dh_ofs h) p) in *. replace (dh_len h - dh_ofs h) with (lenN body) in * by (unfold body; rewrite lenN_dropN; lia).
  assert (Hbb : bytes_ok (body ++ q ++ rest)) by (apply bytes_ok_app; split; [apply Forall_dropN; exact Hbp|exact Hbq]).
  pose proof (C108_decode te r be sa_img sa_rd T (hd_type (dh_h h)) body (q ++ rest) (zeros (N.to_nat (gen_union_size pfcp_cfg r))) HH Hbb
    ltac:(apply in_or_app; right; exact Hr) ltac:(unfold lenN; rewrite zeros_len; apply N2Nat.id) (zeros_zero _)) as G.
  rewrite (decode_tlv_local _ _ (q ++ rest) [0]) in G by (cbn; auto || (apply in_or_app; auto)).
  assert (HL : loop f (dropN (dh_len h) (p ++ q ++ rest)) (lenN (p ++ q) - dh_len h) = loop (length q) (q ++ rest) (lenN q)).
  { rewrite dropN_app' by exact Hl. rewrite lenN_app. replace (lenN p + lenN q - dh_len h) with (lenN q) by lia.
    rewrite app_length in Ef. apply mm_loop_fuel; rewrite ?lenN_app; try exact Hbq; unfold lenN in *; lia. }
  unfold mm_decode_tlv. destruct (decode_tlv (hd_type (dh_h h)) (body ++ [0]) (lenN body)) as [ies|e|u].
  - destruct G as (dm' & -> & U & _). exists (MmMsg (dh_h h) dm'). split; [constructor; exact U|]. rewrite HL. reflexivity.
  - destruct G as (dm' & -> & _). exists (MmDrop e). split; [constructor|]. rewrite HL. reflexivity.
  - destruct G.
Qed.
Lemma mm_messages ps q rest : In 0 rest -> Forall framed ps -> q = [] \/ bad_header q -> bytes_ok ((concat ps ++ q) ++ rest) ->
  exists e os, Forall2 same (map outcome ps ++ (if lenN q =? 0 then [] else [RxBad e])) os /\ rx_data (concat ps ++ q) rest = map outcome ps ++ (if lenN q =? 0 then [] else [RxBad e])
    /\ loop (length (concat ps ++ q)) ((concat ps ++ q) ++ rest) (lenN (concat ps ++ q)) = os.
Proof.
  intros Hr Hps Hq. induction Hps as [|p ps Hp Hps IH]; intros HB.
  - cbn [concat map app] in *. destruct Hq as [->|Hq]; [exists EINVAL, []; repeat split; constructor|].
    destruct q as [|x q]; [exists EINVAL, []; repeat split; constructor|].
    apply err_bad_header in Hq as (e & He). exists e, [MmBad e]. change (lenN (x :: q)) with (N.pos (Pos.of_succ_nat (length q))). cbn [N.eqb].
    split; [constructor; [constructor|constructor]|].
    assert (He' : decode_header ((x :: q) ++ rest) (lenN (x :: q)) = Err e) by (rewrite decode_header_data, <- decode_header_nil; exact He).
    split.
    + unfold rx_data. cbn [length rx_loop]. change (lenN (x :: q) =? 0) with false. rewrite He'. reflexivity.
    + change (N.pos (Pos.of_succ_nat (length q))) with (lenN (x :: q)). cbn [length mm_rx_loop]. change (lenN (x :: q) =? 0) with false.
      rewrite decode_in_memory by (try exact HB; rewrite lenN_app; lia). rewrite He'. reflexivity.
  - cbn [concat map] in *. replace ((p ++ concat ps) ++ q) with (p ++ concat ps ++ q) in * by apply app_assoc.
    pose proof HB as HB'. rewrite <- app_assoc in HB'. apply bytes_ok_app in HB' as [HBp HB'].
    destruct (IH HB') as (e & os & F & E1 & E2).
    destruct (mm_step p (concat ps ++ q) rest Hr HB Hp) as (o & So & Eo).
    exists e, (o :: os). split; [constructor; [exact So|exact F]|]. split.
    + rewrite rx_data_message; [rewrite E1; reflexivity|exact Hr|exact HBp|apply message_framed; exact Hp].
    + rewrite Eo, E2. reflexivity.
Qed.
Lemma mm_datagram ps q : Forall framed ps -> q = [] \/ bad_header q -> bytes_ok (concat ps ++ q) -> lenN (concat ps ++ q) < alloc_size ->
  Forall2 same (rx_datagram (concat ps ++ q)) (mm_rx_datagram te r be sa_img sa_rd T (concat ps ++ q)).
Proof.
  intros Hps Hq HB HL. unfold rx_datagram, mm_rx_datagram. rewrite takeN_all by lia.
  set (rest := zeros (N.to_nat (alloc_size - lenN (concat ps ++ q)))).
  assert (Hr : In 0 rest) by (apply in_zeros; lia).
  assert (HBr : bytes_ok rest) by (unfold bytes_ok; eapply Forall_impl; [|apply zeros_zero]; intros x ->; reflexivity).
  destruct (mm_messages ps q rest Hr Hps Hq) as (e & os & F & E1 & E2); [apply bytes_ok_app; split; assumption|].
  rewrite E1, E2. exact F.
Qed.
(* whatever follows the complete messages *)
Lemma mm_prefix ps q rest : In 0 rest -> Forall framed ps -> bytes_ok ((concat ps ++ q) ++ rest) ->
  exists os, Forall2 same (map outcome ps) os
    /\ loop (length (concat ps ++ q)) ((concat ps ++ q) ++ rest) (lenN (concat ps ++ q)) = os ++ loop (length q) (q ++ rest) (lenN q).
Proof.
  intros Hr Hps. induction Hps as [|p ps Hp Hps IH]; intros HB.
  - exists []. split; [constructor|reflexivity].
  - cbn [concat map] in *. replace ((p ++ concat ps) ++ q) with (p ++ concat ps ++ q) in * by apply app_assoc.
    pose proof HB as HB'. rewrite <- app_assoc in HB'. apply bytes_ok_app in HB' as [HBp HB'].
    destruct (IH HB') as (os & F & E2). destruct (mm_step p (concat ps ++ q) rest Hr HB Hp) as (o & So & Eo).
    exists (o :: os). split; [constructor; [exact So|exact F]|]. rewrite Eo, E2. reflexivity.
Qed.
Lemma mm_datagram_prefix ps q : Forall framed ps -> bytes_ok (concat ps ++ q) -> lenN (concat ps ++ q) < alloc_size ->
  exists os tail, mm_rx_datagram te r be sa_img sa_rd T (concat ps ++ q) = os ++ tail /\ Forall2 same (map outcome ps) os.
Proof.
  intros Hps HB HL. unfold mm_rx_datagram. rewrite takeN_all by lia.
  set (rest := zeros (N.to_nat (alloc_size - lenN (concat ps ++ q)))).
  assert (Hr : In 0 rest) by (apply in_zeros; lia).
  assert (HBr : bytes_ok rest) by (unfold bytes_ok; eapply Forall_impl; [|apply zeros_zero]; intros x ->; reflexivity).
  destruct (mm_prefix ps q rest Hr Hps) as (os & F & E); [apply bytes_ok_app; split; assumption|]. rewrite E. eauto.
Qed.
End Rx.
Lemma one_message te r be sa_img sa_rd T h ies os : Forall2 (same_out te r be sa_img sa_rd T) [RxMsg h ies] os ->
  exists dm, os = [MmMsg h dm] /\ union_holds r (cc_lk te be sa_img sa_rd T) (c_ld te be sa_rd) be (hd_type h) dm ies.
Proof.
  intros F. inversion F as [|x o l os' S1 S2 E1 E2]. inversion S2. inversion S1 as [h' ies' dm U E3 E4| |]. exists dm. split; [reflexivity|exact U].
Qed.
