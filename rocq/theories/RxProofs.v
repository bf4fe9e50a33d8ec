(* RxProofs.v -- header decoding, receive loop, sequence numbers *)
From Verif Require Import Base BaseProofs GtlvModel GtlvSpec GtlvProofs DecEncModel DecEncSpec DecEncProofs
  WfProofs GtlvInst IesModel IesSpec IesProofs TablesModel MsgModel MsgSpec MsgProofs MsgEncProofs.

(* ---------------------------------------------------------------- decode_header *)

Lemma rdN_app_le n a b : n <= lenN a -> rdN n (a ++ b) = Ok (takeN n a).
Proof. intros H. unfold rdN. rewrite lenN_app, takeN_app_le by exact H. dif E; [reflexivity|lia]. Qed.
Lemma rd_be_le n a b : n <= lenN a -> rd_be n (a ++ b) = Ok (be_get (takeN n a)).
Proof. intros H. unfold rd_be. rewrite rdN_app_le by exact H. reflexivity. Qed.

(* the header decoder's result in closed form *)
Definition hdr_of (d : list N) (data_len : N) : res dechdr :=
  let flags := nth 0 d 0 in
  let ofs := hdr_size (flag flags 1) in
  let ml := be_get (takeN 2 (dropN 2 d)) + 4 in
  if data_len <? 4 then Err EINVAL
  else if data_len <? ofs then Err EINVAL
  else if data_len <? ml then Err EMSGSIZE
  else if negb (flag flags 1) then
    (if flag flags 2 then Err EINVAL
     else Ok (mkDh (mkHdr (flags / 32) (nth 1 d 0) None None (be_get (takeN 3 (dropN 4 d)))) ml ofs ((ml + 2 ^ 32 - ofs) mod 2 ^ 32)))
  else Ok (mkDh (mkHdr (flags / 32) (nth 1 d 0) (if flag flags 2 then Some (be_get (takeN 1 (dropN 15 d)) mod 16) else None)
             (Some (be_get (takeN 8 (dropN 4 d)))) (be_get (takeN 3 (dropN 12 d)))) ml ofs ((ml + 2 ^ 32 - ofs) mod 2 ^ 32)).

Lemma nth_takeN n (l : list N) i d : N.of_nat i < n -> n <= lenN l -> nth i (takeN n l) d = nth i l d.
Proof.
  intros H1 H2. rewrite <- (takeN_dropN n l) at 2. rewrite app_nth1; [reflexivity|].
  pose proof (lenN_takeN n l H2). unfold lenN in *. lia.
Qed.
Lemma dropN_takeN a b (l : list N) : b <= lenN l -> dropN a (takeN b l) = takeN (b - a) (dropN a l).
Proof.
  intros H. unfold dropN, takeN. rewrite skipn_firstn_comm. f_equal. lia.
Qed.

Lemma decode_header_closed d rest k : lenN d <= k + lenN d -> 
  (lenN d < 4 -> k = 0) -> (4 <= lenN d -> hdr_size (flag (nth 0 d 0) 1) <= lenN d \/ k = 0) ->
  k <= lenN rest ->
  decode_header (d ++ rest) (lenN d + k) = hdr_of d (lenN d + k).
Proof.
  intros _ H4 Hh Hk. unfold decode_header, hdr_of, hdr_common_size.
  destruct (N.ltb_spec (lenN d + k) 4) as [E|E]; [dif E0; reflexivity|]. dif E0; [lia|].
  assert (Hd : 4 <= lenN d) by (destruct (N.ltb_spec (lenN d) 4) as [X|X]; [specialize (H4 X); lia|exact X]).
  rewrite rdN_app_le by exact Hd. cbn [bind]. rewrite !nth_takeN by (exact Hd || reflexivity).
  set (flags := nth 0 d 0) in *. rewrite (dropN_takeN 2 4) by exact Hd. change (4 - 2) with 2.
  destruct (N.ltb_spec (lenN d + k) (hdr_size (flag flags 1))) as [E1|E1]; [reflexivity|].
  assert (Hd2 : hdr_size (flag flags 1) <= lenN d) by (destruct (Hh Hd); [assumption|lia]).
  dif E2; [reflexivity|].
  destruct (flag flags 1) eqn:Ef; cbn [negb]; unfold hdr_size in Hd2.
  - rewrite !dropN_app_le by lia. rewrite !rd_be_le by (rewrite lenN_dropN; lia). reflexivity.
  - rewrite !dropN_app_le by lia. rewrite !rd_be_le by (rewrite lenN_dropN; lia). reflexivity.
Qed.
Lemma decode_header_data d rest : decode_header (d ++ rest) (lenN d) = hdr_of d (lenN d).
Proof.
  pose proof (decode_header_closed d rest 0) as H. rewrite N.add_0_r in H. apply H; auto; lia.
Qed.
Lemma decode_header_nil d : decode_header d (lenN d) = hdr_of d (lenN d).
Proof. pose proof (decode_header_data d []) as H. rewrite app_nil_r in H. exact H. Qed.

Lemma hdr_of_ok d n h : hdr_of d n = Ok h -> 4 <= dh_len h /\ dh_len h <= n /\ dh_ofs h <= n /\ (dh_ofs h = 8 \/ dh_ofs h = 16)
  /\ dh_tlv h = (dh_len h + 2 ^ 32 - dh_ofs h) mod 2 ^ 32 /\ dh_ofs h = hdr_size (flag (nth 0 d 0) 1)
  /\ dh_len h = be_get (takeN 2 (dropN 2 d)) + 4.
Proof.
  unfold hdr_of. intros H. dif_in H E1; [discriminate|]. dif_in H E2; [discriminate|]. dif_in H E3; [discriminate|].
  destruct (negb (flag (nth 0 d 0) 1)); destruct (flag (nth 0 d 0) 2); try discriminate; injection H as <-; cbn [dh_len dh_ofs dh_tlv];
    (assert (hdr_size (flag (nth 0 d 0) 1) = 8 \/ hdr_size (flag (nth 0 d 0) 1) = 16) by (unfold hdr_size; destruct (flag (nth 0 d 0) 1); auto));
    repeat split; try lia; auto.
Qed.
Lemma hdr_of_no_ub d n u : hdr_of d n <> UB u.
Proof. unfold hdr_of. repeat (match goal with |- context [if ?b then _ else _] => destruct b end; try discriminate). Qed.

Lemma tlv_len_eq l o : o <= l -> l <= 65535 + 4 -> (l + 2 ^ 32 - o) mod 2 ^ 32 = l - o.
Proof.
  intros H1 H2. replace (l + 2 ^ 32 - o) with (l - o + 1 * 2 ^ 32) by lia. rewrite N.mod_add by lia. apply N.mod_small.
  change (2 ^ 32) with 4294967296. lia.
Qed.
Lemma tlv_len_under l o : l < o -> o <= 16 -> (l + 2 ^ 32 - o) mod 2 ^ 32 = 2 ^ 32 - (o - l).
Proof. intros H1 H2. rewrite N.mod_small; change (2 ^ 32) with 4294967296; lia. Qed.

(* C23: stays inside the data *)
Lemma decode_header_inside d rest h : decode_header (d ++ rest) (lenN d) = Ok h -> 4 <= dh_len h /\ dh_len h <= lenN d /\ dh_ofs h <= lenN d.
Proof. rewrite decode_header_data. intros H. apply hdr_of_ok in H. tauto. Qed.
Lemma decode_header_region d rest h : bytes_ok d -> decode_header (d ++ rest) (lenN d) = Ok h -> dh_ofs h <= dh_len h ->
  dh_ofs h + dh_tlv h = dh_len h.
Proof.
  rewrite decode_header_data. intros Hb H Ho. apply hdr_of_ok in H. destruct H as (H1 & H2 & H3 & H4 & H5 & H6 & H7).
  rewrite H5. rewrite tlv_len_eq; [lia|exact Ho|].
  assert (HB : be_get (takeN 2 (dropN 2 d)) < 256 ^ lenN (takeN 2 (dropN 2 d))) by (apply be_get_bound, bytes_ok_takeN, bytes_ok_dropN, Hb).
  rewrite lenN_takeN in HB by (rewrite lenN_dropN; lia). change (256 ^ 2) with 65536 in HB. lia.
Qed.
Lemma decode_header_safe d rest u : decode_header (d ++ rest) (lenN d) <> UB u.
Proof. rewrite decode_header_data. apply hdr_of_no_ub. Qed.

(* decoding looks at the first message only *)
Lemma decode_header_first p q rest h : decode_header p (lenN p) = Ok h -> dh_len h = lenN p -> dh_ofs h <= dh_len h ->
  decode_header ((p ++ q) ++ rest) (lenN (p ++ q)) = Ok h.
Proof.
  intros H Hl Ho. rewrite decode_header_nil in H. pose proof (hdr_of_ok _ _ _ H) as (H1 & H2 & H3 & H4 & H5 & H6 & H7).
  rewrite <- app_assoc, lenN_app. rewrite decode_header_closed.
  - unfold hdr_of in *. dif_in H E1; [discriminate|]. dif_in H E2; [discriminate|]. dif_in H E3; [discriminate|].
    dif E'; [lia|]. dif E''; [lia|]. dif E'''; [lia|]. exact H.
  - lia.
  - lia.
  - intros _. left. lia.
  - rewrite lenN_app. lia.
Qed.

(* ---------------------------------------------------------------- receive loop *)

Lemma rx_loop_fuel f : forall f' m left, left <= N.of_nat f -> left <= N.of_nat f' -> left <= lenN m -> rx_loop f m left = rx_loop f' m left.
Proof.
  induction f as [|f IH]; intros f' m left Hf Hf' Hm.
  - assert (left = 0) by lia. subst. destruct f'; reflexivity.
  - destruct f' as [|f']. { assert (left = 0) by lia. subst. reflexivity. }
    cbn [rx_loop]. dif E; [reflexivity|].
    destruct (decode_header m left) as [d|e|u] eqn:Ed; try reflexivity.
    pose proof (lenN_takeN left m Hm) as Hlt.
    assert (Ed' : decode_header (takeN left m ++ dropN left m) (lenN (takeN left m)) = Ok d) by (rewrite takeN_dropN, Hlt; exact Ed).
    apply decode_header_inside in Ed' as (H1 & H2 & _). rewrite Hlt in H2.
    rewrite (IH f') by (rewrite ?lenN_dropN; lia). reflexivity.
Qed.

(* the loop takes one message off *)
Lemma rx_data_message p q rest : In 0 rest -> bytes_ok p -> message p -> rx_data (p ++ q) rest = outcome p :: rx_data q rest.
Proof.
  intros Hr Hb (h & Hh & Hl & Ho). unfold rx_data.
  pose proof (hdr_of_ok _ _ _ (eq_trans (eq_sym (decode_header_nil p)) Hh)) as (H1 & H2 & H3 & H4 & _).
  destruct (length (p ++ q)) as [|f] eqn:Ef. { exfalso. rewrite app_length in Ef. unfold lenN in *. lia. }
  cbn [rx_loop]. dif E; [rewrite lenN_app in E; lia|]. clear E.
  rewrite (decode_header_first p q rest h Hh Hl Ho).
  unfold rx_tlv, outcome. rewrite Hh.
  assert (Ht : dh_tlv h = dh_len h - dh_ofs h).
  { pose proof (decode_header_region p [] h Hb) as HR. rewrite app_nil_r in HR. specialize (HR Hh Ho). lia. }
  rewrite <- app_assoc. rewrite dropN_app_le by lia. rewrite Ht.
  replace (dh_len h - dh_ofs h) with (lenN (dropN (dh_ofs h) p)) by (rewrite lenN_dropN; lia).
  rewrite (decode_tlv_local _ _ (q ++ rest) [0]) by (cbn; auto || (apply in_or_app; auto)).
  pose proof (decode_tlv_safe (hd_type (dh_h h)) (dropN (dh_ofs h) p) [0] ltac:(cbn; auto)) as Hs.
  assert (HL : rx_loop f (dropN (dh_len h) (p ++ q ++ rest)) (lenN (p ++ q) - dh_len h) = rx_loop (length q) (q ++ rest) (lenN q)).
  { rewrite dropN_app' by exact Hl. rewrite lenN_app. replace (lenN p + lenN q - dh_len h) with (lenN q) by lia.
    rewrite app_length in Ef. apply rx_loop_fuel; rewrite ?lenN_app; unfold lenN in *; lia. }
  destruct (decode_tlv _ _ _) as [ies|e|u]; [rewrite HL; reflexivity|rewrite HL; reflexivity|discriminate].
Qed.

Lemma outcome_good p : message p -> (exists h ies, outcome p = RxMsg h ies) \/ (exists e, outcome p = RxDrop e).
Proof.
  intros (h & Hh & Hl & Ho). unfold outcome. rewrite Hh.
  replace (dh_len h - dh_ofs h) with (lenN (dropN (dh_ofs h) p)) by (rewrite lenN_dropN; lia).
  pose proof (decode_tlv_safe (hd_type (dh_h h)) (dropN (dh_ofs h) p) [0] ltac:(cbn; auto)) as Hs.
  destruct (decode_tlv _ _ _) as [ies|e|u]; [left; eauto|right; eauto|discriminate].
Qed.

(* the receive loop in full, apart from messages with an undersized length field *)
Theorem rx_data_structure n : forall d rest, (length d <= n)%nat -> In 0 rest -> bytes_ok d ->
  exists ps q, d = concat ps ++ q /\ Forall message ps
    /\ ((q = [] /\ rx_data d rest = map outcome ps)
        \/ (exists e, decode_header q (lenN q) = Err e /\ q <> [] /\ rx_data d rest = map outcome ps ++ [RxBad e])
        \/ (undersized q /\ rx_data d rest = map outcome ps ++ rx_data q rest)).
Proof.
  induction n as [|n IH]; intros d rest Hn Hr Hb.
  - destruct d; [|cbn in Hn; lia]. exists [], []. repeat split; [constructor|]. left. split; reflexivity.
  - destruct d as [|b0 d0] eqn:Hd0. { exists [], []. repeat split; [constructor|]. left. split; reflexivity. }
    rewrite <- Hd0 in *. assert (Hne : d <> []) by (rewrite Hd0; discriminate). clear b0 d0 Hd0.
    assert (Hlen : 0 < lenN d) by (destruct d; [congruence|rewrite lenN_cons; lia]).
    destruct (decode_header d (lenN d)) as [h|e|u] eqn:E.
    + assert (E' := E). rewrite decode_header_nil in E'. pose proof (hdr_of_ok _ _ _ E') as (H1 & H2 & H3 & H4 & H5 & H6 & H7).
      destruct (N.ltb_spec (dh_len h) (dh_ofs h)) as [Hu|Hu].
      * exists [], d. split; [reflexivity|]. split; [constructor|]. right. right. split; [exists h; auto|reflexivity].
      * set (p := takeN (dh_len h) d). set (r := dropN (dh_len h) d).
        assert (Hpr : d = p ++ r) by (symmetry; apply takeN_dropN).
        assert (Hlp : lenN p = dh_len h) by (apply lenN_takeN; exact H2).
        assert (Hm : message p).
        { exists h. rewrite decode_header_nil. repeat split; [|symmetry; exact Hlp|exact Hu].
          unfold p, hdr_of in *. rewrite !nth_takeN by (try exact H2; lia). rewrite !dropN_takeN by exact H2.
          assert (HT : forall a k, k <= dh_len h - a -> takeN k (takeN (dh_len h - a) (dropN a d)) = takeN k (dropN a d)).
          { intros a k Hk. unfold takeN. rewrite firstn_firstn. f_equal. lia. }
          assert (Hsz : hdr_size (flag (nth 0 d 0) 1) <= dh_len h) by lia.
          rewrite (HT 2 2) by lia.
          unfold hdr_size in Hsz. destruct (flag (nth 0 d 0) 1) eqn:Ef; cbn [negb] in *; rewrite ?HT by lia; rewrite Hlp;
          (dif_in E' X1; [discriminate|]); (dif_in E' X2; [discriminate|]); (dif_in E' X3; [discriminate|]);
          (dif Y1; [lia|]); (dif Y2; [unfold hdr_size in *; lia|]); (dif Y3; [lia|]); exact E'. }
        assert (Hbp : bytes_ok p /\ bytes_ok r) by (apply bytes_ok_app; rewrite <- Hpr; exact Hb).
        destruct (IH r rest) as (ps & q & Hq & Hps & HR); [|exact Hr|apply Hbp|].
        { rewrite Hpr, app_length in Hn. unfold lenN in *. lia. }
        exists (p :: ps), q. cbn [concat map]. rewrite <- app_assoc, <- Hq. split; [exact Hpr|]. split; [constructor; assumption|].
        rewrite Hpr, rx_data_message by (try assumption; apply Hbp).
        destruct HR as [(-> & ->)|[(e & He & Hqn & ->)|(Hun & ->)]]; [left|right; left|right; right]; auto.
        exists e. auto.
    + exists [], d. split; [reflexivity|]. split; [constructor|]. right. left. exists e. repeat split; auto.
      unfold rx_data. rewrite decode_header_nil in E.
      destruct d as [|b d']; [congruence|]. cbn [length rx_loop]. dif X; [lia|]. rewrite decode_header_data, E. reflexivity.
    + exfalso. rewrite decode_header_nil in E. eapply hdr_of_no_ub, E.
Qed.

(* ---------------------------------------------------------------- sequence numbers *)

Lemma next_seq_nr_eq s : next_seq_nr s = if (s + 1) mod 2 ^ 24 =? 0 then 1 else (s + 1) mod 2 ^ 24.
Proof.
  unfold next_seq_nr. change 16777215 with (N.ones 24). rewrite N.land_ones.
  assert (HM : ((s + 1) mod 2 ^ 32) mod 2 ^ 24 = (s + 1) mod 2 ^ 24).
  { change (2 ^ 32) with (2 ^ 24 * 256). rewrite N.mod_mul_r by lia. rewrite N.mul_comm, N.mod_add by lia. apply N.mod_mod. lia. }
  rewrite HM. dif E; [|reflexivity]. apply N.eqb_eq in E. rewrite E. reflexivity.
Qed.
Lemma next_seid_eq s : next_seid s = if (s + 1) mod 2 ^ 64 =? 0 then 1 else (s + 1) mod 2 ^ 64.
Proof. unfold next_seid. dif E; [|reflexivity]. apply N.eqb_eq in E. rewrite E. reflexivity. Qed.

Section Counter.
Context (W : N) (HW : 2 < W) (next : N -> N) (Hnext : forall s, next s = if (s + 1) mod W =? 0 then 1 else (s + 1) mod W).

Lemma ctr_range s : 1 <= next s < W.
Proof.
  rewrite Hnext. pose proof (N.mod_lt (s + 1) W ltac:(lia)). dif E; [lia|]. apply N.eqb_neq in E. lia.
Qed.
Lemma ctr_step x : 1 <= x < W -> next x = (x - 1 + 1) mod (W - 1) + 1.
Proof.
  intros H. rewrite Hnext. destruct (N.eq_dec x (W - 1)) as [->|Hx].
  - replace (W - 1 + 1) with W by lia. rewrite N.mod_same by lia. replace (W - 1 - 1 + 1) with (W - 1) by lia.
    rewrite N.mod_same by lia. reflexivity.
  - rewrite N.mod_small by lia. dif E; [lia|]. rewrite N.mod_small by lia. lia.
Qed.
(* the value after k + 1 calls *)
Lemma ctr_iter s k : Nat.iter (S k) next s = (next s - 1 + N.of_nat k) mod (W - 1) + 1.
Proof.
  pose proof (ctr_range s) as Hr. induction k as [|k IH].
  - cbn. rewrite N.mod_small by lia. lia.
  - change (Nat.iter (S (S k)) next s) with (next (Nat.iter (S k) next s)).
    rewrite IH. set (y := next s - 1 + N.of_nat k).
    pose proof (N.mod_lt y (W - 1) ltac:(lia)). rewrite ctr_step by lia.
    replace (next s - 1 + N.of_nat (S k)) with (y + 1) by lia.
    replace (y mod (W - 1) + 1 - 1 + 1) with (y mod (W - 1) + 1) by lia.
    rewrite N.add_mod_idemp_l by lia. reflexivity.
Qed.
Lemma mod_small_diff M a d : 0 < d < M -> a mod M <> (a + d) mod M.
Proof.
  intros Hd H. pose proof (N.div_mod a M ltac:(lia)) as E1. pose proof (N.div_mod (a + d) M ltac:(lia)) as E2.
  pose proof (N.mod_lt a M ltac:(lia)). pose proof (N.mod_lt (a + d) M ltac:(lia)).
  rewrite <- H in E2. generalize dependent ((a + d) / M). intros q2 E2. generalize dependent (a / M). intros q1 E1.
  assert (M * q2 = M * q1 + d) by lia.
  assert (q1 < q2 \/ q2 <= q1) as [Hq|Hq] by lia; [|nia]. nia.
Qed.
Lemma ctr_distinct s i j : (i < j)%nat -> N.of_nat (j - i) < W - 1 -> Nat.iter (S i) next s <> Nat.iter (S j) next s.
Proof.
  intros H1 H2. rewrite !ctr_iter. intros H.
  apply (mod_small_diff (W - 1) (next s - 1 + N.of_nat i) (N.of_nat (j - i))); [lia|].
  replace (next s - 1 + N.of_nat i + N.of_nat (j - i)) with (next s - 1 + N.of_nat j) by lia. lia.
Qed.
End Counter.
