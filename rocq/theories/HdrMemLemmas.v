(* HdrMemLemmas.v -- zeroed memory, and exchange of messages between hosts of either byte order (for PropertiesHdr.v) *)
From Verif Require Import Base BaseProofs GtlvModel DecEncModel DecEncSpec IesModel TablesModel MsgModel MsgSpec MsgProofs MsgEncProofs RxProofs TermProofs SizeProofs MsgFinalProofs EncAppendProofs EncPrefixProofs HdrMemModel HdrMemSpec HdrMemProofs.

Lemma msg_encode_shape m h ies m' : lenN (mb_buf m) <= mb_cap m -> msg_encode m h ies = MOk m' ->
  exists len x, m' = mkMsgb (old_buf m ++ hdr_bytes h len ++ x) (mb_cap m) (Some (l3_of m)) (Some (lenN (mb_buf m)))
    /\ len = hdr_len h - 4 + lenN x /\ len <= 65535.
Proof.
  intros C H. destruct (msg_encode_ok m h ies m' C H) as (bs & _ & L & -> & _). exists (hdr_len h - 4 + lenN bs), bs. auto.
Qed.
Lemma forall_nth_zero l i : Forall (fun x : N => x = 0) l -> nth i l 0 = 0.
Proof. intros F. revert i. induction F as [|x l E F IH]; intros [|i]; cbn; auto. Qed.
Lemma dropN_more a b (l : list N) : a <= b -> dropN b l = dropN (b - a) (dropN a l).
Proof. intros L. rewrite dropN_dropN. f_equal. lia. Qed.
Lemma nth_dropN a i (l : list N) : nth (a + i) l 0 = nth i (dropN (N.of_nat a) l) 0.
Proof. unfold dropN. rewrite Nat2N.id. revert l. induction a as [|a IH]; intros [|x l]; cbn; auto; destruct i; reflexivity. Qed.
Lemma Forall_dropN {P : N -> Prop} n l : Forall P l -> Forall P (dropN n l).
Proof. intros F. unfold dropN. revert l F. induction (N.to_nat n) as [|k IH]; intros l F; [exact F|]. destruct F; cbn; auto. Qed.

Lemma encode_zeroed be m b h ies m' : holds m b -> bytes_ok (cm_mem b) -> tail_zero b -> msg_encode m h ies = MOk m' ->
  exists b', c_msg_encode be b h ies = COk b' /\ holds m' b' /\ tail_zero b'.
Proof.
  intros H HB HZ HE. pose proof (encode_in_memory be m b h ies H HB) as EM. cbv zeta in EM. rewrite HE in EM.
  destruct EM as (b' & EM & H' & D). exists b'. split; [exact EM|].
  pose proof (holds_split m b H) as [_ L]. assert (C : lenN (mb_buf m) <= mb_cap m) by (destruct H as (H1 & _ & H3 & _); lia).
  destruct (msg_encode_shape m h ies m' C HE) as (len & x & -> & _ & _).
  set (size := hdr_size (is_some (hd_seid h))) in *.
  assert (Z : nth (N.to_nat (cm_tail b + size - 1)) (cm_mem b) 0 = 0).
  { assert (1 <= size) by (unfold size, hdr_size; destruct (is_some _); lia).
    replace (N.to_nat (cm_tail b + size - 1)) with (N.to_nat (cm_tail b) + N.to_nat (size - 1))%nat by lia.
    rewrite nth_dropN, N2Nat.id. apply forall_nth_zero. exact HZ. }
  rewrite Z in H'. assert (LO : lenN (old_buf m) = cm_tail b) by (rewrite old_buf_len; exact L). rewrite <- LO in H'.
  pose proof (set_octet_img (old_buf m) h len x 0 (mb_cap m, (Some (l3_of m), Some (lenN (mb_buf m))))) as SO. cbn [fst snd] in SO. fold size in SO.
  rewrite SO, himg_zero in H'. split; [exact H'|].
  unfold tail_zero in *. rewrite D. assert (T : cm_tail b <= cm_tail b').
  { pose proof (holds_split _ _ H') as [_ L']. cbn [mb_buf] in L'. rewrite <- L', !lenN_app, LO. lia. }
  rewrite (dropN_more _ _ _ T). apply Forall_dropN. exact HZ.
Qed.

(* the octets from the old tail to the new one are a whole message, and any host reads its header *)
Lemma encode_exchange be be' m b h ies m' : holds m b -> bytes_ok (cm_mem b) -> valid_hdr h -> msg_encode m h ies = MOk m' ->
  exists b' q, c_msg_encode be b h ies = COk b' /\ takeN (cm_tail b' - cm_tail b) (dropN (cm_tail b) (cm_mem b')) = q
    /\ lenN q = lenN (mb_buf m') - lenN (mb_buf m) /\ hdr_len h <= lenN q
    /\ dropN (hdr_len h) q = dropN (lenN (mb_buf m) + hdr_len h) (mb_buf m')
    /\ forall rest, bytes_ok (q ++ rest) ->
         c_decode_header be' (q ++ rest) (lenN q) = Ok (mkDh h (lenN q) (hdr_len h) (lenN q - hdr_len h)).
Proof.
  intros H HB V HE. pose proof (encode_in_memory be m b h ies H HB) as EM. cbv zeta in EM. rewrite HE in EM.
  destruct EM as (b' & EM & H' & D). exists b'.
  pose proof (holds_split m b H) as [_ L]. assert (C : lenN (mb_buf m) <= mb_cap m) by (destruct H as (H1 & _ & H3 & _); lia).
  destruct (msg_encode_shape m h ies m' C HE) as (len & x & -> & EL & LL). cbn [mb_buf] in *.
  set (old := nth _ (cm_mem b) 0) in *. assert (LO : lenN (old_buf m) = cm_tail b) by (rewrite old_buf_len; exact L). rewrite <- LO in H'.
  pose proof (set_octet_img (old_buf m) h len x old (mb_cap m, (Some (l3_of m), Some (lenN (mb_buf m))))) as SO. cbn [fst snd] in SO.
  rewrite SO in H'. pose proof (holds_split _ _ H') as [E' L']. cbn [mb_buf] in E', L'.
  exists (himg h old len ++ x). split; [exact EM|].
  assert (HQ : lenN (himg h old len ++ x) = hdr_len h + lenN x) by (rewrite lenN_app, himg_len; f_equal; unfold hdr_size, hdr_len; destruct (hd_seid h); reflexivity).
  split.
  { rewrite <- L', !lenN_app, LO. replace (cm_tail b + (lenN (himg h old len) + lenN x) - cm_tail b) with (lenN (himg h old len ++ x)) by (rewrite lenN_app; lia).
    rewrite E', <- app_assoc. rewrite <- LO. rewrite dropN_app. apply takeN_app. }
  split; [rewrite HQ, !lenN_app, hdr_bytes_len, old_buf_len; lia|]. split; [rewrite HQ; lia|].
  assert (SZ : hdr_len h = lenN (himg h old len)) by (rewrite himg_len; unfold hdr_size, hdr_len; destruct (hd_seid h); reflexivity).
  split.
  { rewrite SZ at 1. rewrite dropN_app. rewrite app_assoc. rewrite dropN_app'; [reflexivity|]. rewrite lenN_app, hdr_bytes_len, old_buf_len. reflexivity. }
  intros rest BO. rewrite decode_in_memory by (try exact BO; rewrite (lenN_app (himg h old len ++ x) rest); lia).
  rewrite <- app_assoc, decode_stale. rewrite hdr_bytes_wire by (try assumption; lia).
  replace (len - (hdr_len h - 4)) with (lenN x) by lia. rewrite HQ. rewrite decode_header_wire by (try assumption; lia). f_equal. f_equal. lia.
Qed.

Lemma holds_det m b1 b2 b : holds m b1 -> holds m b2 -> dropN (cm_tail b1) (cm_mem b1) = dropN (cm_tail b1) (cm_mem b) ->
  dropN (cm_tail b2) (cm_mem b2) = dropN (cm_tail b2) (cm_mem b) -> b1 = b2.
Proof.
  intros H1 H2 D1 D2. destruct (holds_split m b1 H1) as [E1 L1]. destruct (holds_split m b2 H2) as [E2 L2].
  destruct H1 as (_ & _ & _ & A1 & B1). destruct H2 as (_ & _ & _ & A2 & B2). destruct b1 as [m1 t1 x1 y1], b2 as [m2 t2 x2 y2]. cbn [cm_mem cm_tail cm_l3 cm_l4] in *.
  subst. f_equal. rewrite E1, E2. rewrite D1, D2. reflexivity.
Qed.
Lemma same_octets be b h ies : cm_tail b <= lenN (cm_mem b) -> bytes_ok (cm_mem b) -> c_msg_encode be b h ies = c_msg_encode false b h ies.
Proof.
  intros T HB. set (m := mkMsgb (takeN (cm_tail b) (cm_mem b)) (lenN (cm_mem b)) (cm_l3 b) (cm_l4 b)).
  assert (H : holds m b) by (unfold holds, m; cbn; auto).
  pose proof (encode_in_memory be m b h ies H HB) as E1. pose proof (encode_in_memory false m b h ies H HB) as E2. cbv zeta in E1, E2.
  destruct (msg_encode m h ies) as [m'|m' e|u].
  - destruct E1 as (b1 & -> & H1 & D1), E2 as (b2 & -> & H2 & D2). f_equal. exact (holds_det _ _ _ _ H1 H2 D1 D2).
  - destruct E1 as (b1 & -> & H1 & D1), E2 as (b2 & -> & H2 & D2). f_equal. exact (holds_det _ _ _ _ H1 H2 D1 D2).
  - congruence.
Qed.

Lemma message_exchange be be' h ies tab : valid_hdr h -> get_msg_coding (hd_type h) = Some tab -> valid_struct tab ies ->
  exists bs, wire_struct tab ies bs
    /\ (hdr_len h + lenN bs <= 65539 -> forall m b, holds m b -> bytes_ok (cm_mem b) -> cm_tail b + hdr_len h + lenN bs <= lenN (cm_mem b) ->
        exists b' q, c_msg_encode be b h ies = COk b' /\ takeN (cm_tail b' - cm_tail b) (dropN (cm_tail b) (cm_mem b')) = q
          /\ lenN q = hdr_len h + lenN bs
          /\ forall rest, In 0 rest -> bytes_ok (q ++ rest) ->
               exists d, c_decode_header be' (q ++ rest) (lenN q) = Ok d /\ dh_h d = h /\ dh_len d = lenN q
                 /\ decode_tlv (hd_type (dh_h d)) (dropN (dh_ofs d) (q ++ rest)) (dh_tlv d) = Ok ies).
Proof.
  intros V T S. destruct (msg_roundtrip h ies tab V T S) as (bs & W & E & D). exists bs. split; [exact W|]. intros L m b H HB R.
  pose proof (holds_split m b H) as [_ LT]. assert (LC : lenN (cm_mem b) = mb_cap m) by apply H.
  destruct (E L m ltac:(lia)) as (m' & prev & HE & EB & LP).
  destruct (encode_exchange be be' m b h ies m' H HB V HE) as (b' & q & EC & EQ & LQ & _ & XQ & DQ). exists b', q.
  split; [exact EC|]. split; [exact EQ|]. rewrite EB, !lenN_app, wire_hdr_len, LP in LQ. assert (LQ' : lenN q = hdr_len h + lenN bs) by lia.
  split; [exact LQ'|]. intros rest Z BO. rewrite DQ by exact BO. eexists. split; [reflexivity|]. split; [reflexivity|]. split; [reflexivity|].
  cbn [dh_h dh_ofs dh_tlv]. rewrite EB in XQ. rewrite app_assoc, dropN_app' in XQ by (rewrite lenN_app, wire_hdr_len; lia).
  assert (Hhl : hdr_len h = 8 \/ hdr_len h = 16) by (unfold hdr_len; destruct (hd_seid h); auto). destruct (D L rest Z) as (d & D1 & D2 & D3 & D4). rewrite <- app_assoc in D1, D4. rewrite decode_header_wire in D1 by (try assumption; lia).
  assert (D1' : d = mkDh h (hdr_len h + lenN bs) (hdr_len h) (lenN bs)) by congruence. rewrite D1' in D4. cbn [dh_h dh_ofs dh_tlv] in D4.
  rewrite dropN_app' in D4 by (rewrite wire_hdr_len; reflexivity). rewrite dropN_app_le by lia. rewrite XQ, LQ'.
  replace (hdr_len h + lenN bs - hdr_len h) with (lenN bs) by lia. exact D4.
Qed.
