(* HdrMemProofs.v -- the header in memory (HdrMemModel.v) has the octets of MsgModel.v, on both byte orders, but for spare bits *)
From Coq Require Import String Ascii.
From Verif Require Import Base BaseProofs GtlvModel GtlvSpec GtlvProofs WfProofs DecEncModel DecEncSpec DecEncProofs CStr IesModel TablesModel MsgModel MsgProofs MsgEncProofs TermProofs SizeProofs StrModel MemModel EncAppendProofs EncPrefixProofs HdrMemModel HdrMemSpec.
Local Open Scope string_scope.
Local Open Scope N_scope.
Local Open Scope list_scope.

(* ---------------------------------------------------------------- bit fields *)
Lemma bits_pos be : bf_pos be 0 (common_bits be) "seid_present" = (0, 1) /\ bf_pos be 0 (common_bits be) "message_priority_present" = (1, 1)
  /\ bf_pos be 0 (common_bits be) "follow_on" = (2, 1) /\ bf_pos be 0 (common_bits be) "version" = (5, 3) /\ bf_pos be 0 (prio_bits be) "message_priority" = (0, 4).
Proof. destruct be; vm_compute; auto. Qed.
Lemma flags_stored be (seid prio : bool) v :
  bf_set be (common_bits be) "seid_present" (b2n seid) (bf_set be (common_bits be) "message_priority_present" (b2n prio) (bf_set be (common_bits be) "version" v 0))
  = hdr_flags seid prio false v.
Proof.
  destruct (bits_pos be) as (P1 & P2 & P3 & P4 & _). unfold bf_set. rewrite P1, P2, P4. unfold hdr_flags. change (2 ^ 3) with 8.
  assert (L : v mod 8 < 8) by (apply N.mod_lt; discriminate). set (x := v mod 8) in *. clearbody x. 
  assert (E : x = 0 \/ x = 1 \/ x = 2 \/ x = 3 \/ x = 4 \/ x = 5 \/ x = 6 \/ x = 7) by lia.
  destruct seid, prio; repeat (destruct E as [->|E]; [vm_compute; reflexivity|]); subst x; vm_compute; reflexivity.
Qed.
Lemma follow_stored be x : bf_set be (common_bits be) "follow_on" 1 x = N.lor x 4.
Proof.
  destruct (bits_pos be) as (_ & _ & P3 & _). unfold bf_set. rewrite P3. change (N.shiftl (N.ones 1) 2) with 4. change (N.shiftl (1 mod 2 ^ 1) 2) with 4.
  apply N.bits_inj. intros k. rewrite !N.lor_spec, N.ldiff_spec. destruct (N.testbit x k), (N.testbit 4 k); reflexivity.
Qed.
Lemma all_bytes (P : N -> bool) : forallb P (map N.of_nat (seq 0 256)) = true -> forall x, x < 256 -> P x = true.
Proof.
  intros H x L. rewrite forallb_forall in H. apply H. apply in_map_iff. exists (N.to_nat x). split; [lia|]. apply in_seq. lia.
Qed.
Lemma prio_stored be p old : old < 256 -> bf_set be (prio_bits be) "message_priority" p old = 16 * (old / 16) + p mod 16.
Proof.
  intros L. destruct (bits_pos be) as (_ & _ & _ & _ & P5). unfold bf_set. rewrite P5. change (2 ^ 4) with 16. rewrite !N.shiftl_0_r. change (N.ones 4) with 15.
  assert (Q : p mod 16 < 16) by (apply N.mod_lt; discriminate). set (q := p mod 16) in *. clearbody q.
  apply N.eqb_eq. pose proof (all_bytes (fun q => forallb (fun o => (if q <? 16 then N.lor (N.ldiff o 15) q =? 16 * (o / 16) + q else true)) (map N.of_nat (seq 0 256)))) as G.
  assert (G1 : forallb (fun o => (if q <? 16 then N.lor (N.ldiff o 15) q =? 16 * (o / 16) + q else true)) (map N.of_nat (seq 0 256)) = true).
  { apply (G ltac:(vm_compute; reflexivity) q). lia. }
  pose proof (all_bytes _ G1 old L) as G2. cbv beta in G2. destruct (N.ltb_spec q 16); [exact G2|lia].
Qed.
Lemma bits_loaded be x : x < 256 ->
  (bf_get be (common_bits be) "seid_present" x =? 0) = negb (flag x 1) /\ (bf_get be (common_bits be) "message_priority_present" x =? 0) = negb (flag x 2)
  /\ bf_get be (common_bits be) "version" x = x / 32 /\ bf_get be (prio_bits be) "message_priority" x = x mod 16.
Proof.
  intros L. destruct (bits_pos be) as (P1 & P2 & _ & P4 & P5). unfold bf_get. rewrite P1, P2, P4, P5.
  pose proof (all_bytes (fun x => Bool.eqb ((x / 2 ^ 0) mod 2 ^ 1 =? 0) (negb (flag x 1)) && Bool.eqb ((x / 2 ^ 1) mod 2 ^ 1 =? 0) (negb (flag x 2)) && (((x / 2 ^ 5) mod 2 ^ 3) =? x / 32)
    && ((x / 2 ^ 0) mod 2 ^ 4 =? x mod 16)) ltac:(vm_compute; reflexivity) x L) as G. cbv beta in G.
  apply andb_true_iff in G as [G G4]. apply andb_true_iff in G as [G G3]. apply andb_true_iff in G as [G1 G2].
  apply Bool.eqb_prop in G1, G2. apply N.eqb_eq in G3, G4. auto.
Qed.

(* ---------------------------------------------------------------- stores *)
(* the header of h in memory whose last octet was [old] *)
Definition front (h : hdr) (len : N) : list N :=
  [hdr_flags (is_some (hd_seid h)) (is_some (hd_prio h)) false (hd_version h); hd_type h mod 256] ++ be_put 2 len
  ++ match hd_seid h with None => be_put 3 (hd_seq h) | Some s => be_put 8 s ++ be_put 3 (hd_seq h) end.
Definition himg (h : hdr) (old len : N) : list N := front h len ++ [last_octet h old].
Lemma front_len h len : lenN (front h len) = hdr_size (is_some (hd_seid h)) - 1.
Proof. unfold front, hdr_size. destruct (hd_seid h); reflexivity. Qed.
Lemma himg_len h old len : lenN (himg h old len) = hdr_size (is_some (hd_seid h)).
Proof. unfold himg. rewrite lenN_app, front_len. unfold hdr_size. destruct (is_some _); reflexivity. Qed.
Lemma himg_zero h len : himg h 0 len = hdr_bytes h len.
Proof.
  unfold himg, front, hdr_bytes, last_octet. destruct (hd_seid h) as [s|]; [destruct (hd_prio h) as [p|]|]; rewrite <- !app_assoc; try reflexivity.
Qed.

Lemma wr_in A M R a k bs : lenN A = a -> k + lenN bs <= lenN M -> wr (a + k) bs (A ++ M ++ R) = (A ++ overwrite M k bs ++ R, Ok tt).
Proof.
  intros HA H. unfold wr. rewrite !lenN_app, HA. destruct (N.leb_spec (a + k + lenN bs) (a + (lenN M + lenN R))); [|lia]. f_equal.
  change (overwrite (A ++ M ++ R) (a + k) bs = A ++ overwrite M k bs ++ R). rewrite overwrite_app by lia. f_equal. replace (a + k - lenN A) with k by lia.
  unfold overwrite. rewrite takeN_app_le, dropN_app_le by lia. rewrite !app_assoc. reflexivity.
Qed.
Lemma peek_in A M R a k n : lenN A = a -> k + n <= lenN M -> peek (a + k) n (A ++ M ++ R) = Ok (takeN n (dropN k M)).
Proof.
  intros HA H. unfold peek. rewrite !lenN_app, HA. destruct (N.leb_spec (a + k + n) (a + (lenN M + lenN R))); [|lia]. f_equal.
  rewrite dropN_app_ge by lia. replace (a + k - lenN A) with k by lia. rewrite dropN_app_le by lia. apply takeN_app_le. rewrite lenN_dropN. lia.
Qed.

Lemma store_in be A M R h a old : lenN A = a -> lenN M = hdr_size (is_some (hd_seid h)) -> dropN (hdr_size (is_some (hd_seid h)) - 1) M = [old] -> old < 256 ->
  c_store_header be a h (A ++ M ++ R) = (A ++ himg h old (hdr_size (is_some (hd_seid h)) - 4) ++ R,
    match hd_seid h, hd_prio h with None, Some _ => Err EINVAL | _, _ => Ok tt end).
Proof.
  intros HA HM HO HB. unfold c_store_header. cbv zeta. rewrite flags_stored.
  set (f := hdr_flags _ _ _ _). set (t := hd_type h mod 256).
  assert (SL : forall M', lenN M' = lenN M -> c_set_length a (hdr_size (is_some (hd_seid h))) (A ++ M' ++ R) = (A ++ overwrite M' 2 (be_put 2 (hdr_size (is_some (hd_seid h)) - 4)) ++ R, Ok tt)).
  { intros M' L'. unfold c_set_length. destruct (hd_seid h); cbn [is_some hdr_size] in *; change (16 <? 4) with false; change (8 <? 4) with false; change (65535 <? 16 - 4) with false; change (65535 <? 8 - 4) with false; cbn iota; (rewrite wr_in; [reflexivity|exact HA|]); rewrite L', HM, be_put_lenN; vm_compute; discriminate. }
  unfold bindm at 1. rewrite <- (N.add_0_r a) at 1. rewrite wr_in; [|exact HA|rewrite HM; unfold hdr_size; destruct (is_some _); vm_compute; discriminate].
  set (M1 := overwrite M 0 [f; t; 0; 0]). assert (L1 : lenN M1 = lenN M) by (apply overwrite_lenN; rewrite HM; unfold hdr_size; destruct (is_some _); vm_compute; discriminate).
  unfold bindm at 1. rewrite (SL M1 L1). set (M2 := overwrite M1 2 _).
  destruct (hd_seid h) as [s|] eqn:Es; cbn [is_some hdr_size] in *.
  - do 16 (destruct M as [|? M]; [vm_compute in HM; discriminate HM|]). destruct M; [|exfalso; rewrite !lenN_cons in HM; lia].
    vm_compute in HO. injection HO as ->.
    assert (E2 : exists m4 m5 m6 m7 m8 m9 m10 m11 m12 m13 m14, M2 = [f; t] ++ be_put 2 (16 - 4) ++ [m4; m5; m6; m7; m8; m9; m10; m11; m12; m13; m14; old]).
    { unfold M2, M1. do 11 eexists. reflexivity. }
    destruct E2 as (m4 & m5 & m6 & m7 & m8 & m9 & m10 & m11 & m12 & m13 & m14 & E2). rewrite E2. clear SL M1 L1 M2 E2.
    unfold bindm at 1. rewrite wr_in; [|exact HA|vm_compute; discriminate].
    match goal with |- context [overwrite ?l 4 ?b] => replace (overwrite l 4 b) with ([f; t] ++ be_put 2 (16 - 4) ++ be_put 8 s ++ [m12; m13; m14; old]) by reflexivity end.
    unfold bindm at 1. rewrite wr_in; [|exact HA|vm_compute; discriminate].
    match goal with |- context [overwrite ?l 12 ?b] => replace (overwrite l 12 b) with ([f; t] ++ be_put 2 (16 - 4) ++ be_put 8 s ++ be_put 3 (hd_seq h) ++ [old]) by reflexivity end.
    unfold himg, front, last_octet. rewrite Es. destruct (hd_prio h) as [p|] eqn:Ep; cbn [is_some].
    + unfold bindm, MemModel.rd. rewrite peek_in; [|exact HA|vm_compute; discriminate].
      match goal with |- context [takeN 1 (dropN 15 ?l)] => replace (takeN 1 (dropN 15 l)) with [old] by reflexivity end.
      rewrite wr_in; [|exact HA|vm_compute; discriminate]. change (be_get [old]) with old. rewrite prio_stored by exact HB. reflexivity.
    + reflexivity.
  - do 8 (destruct M as [|? M]; [vm_compute in HM; discriminate HM|]). destruct M; [|exfalso; rewrite !lenN_cons in HM; lia].
    vm_compute in HO. injection HO as ->.
    assert (E2 : exists m4 m5 m6, M2 = [f; t] ++ be_put 2 (8 - 4) ++ [m4; m5; m6; old]) by (unfold M2, M1; do 3 eexists; reflexivity).
    destruct E2 as (m4 & m5 & m6 & E2). rewrite E2. clear SL M1 L1 M2 E2.
    unfold bindm at 1. rewrite wr_in; [|exact HA|vm_compute; discriminate].
    match goal with |- context [overwrite ?l 4 ?b] => replace (overwrite l 4 b) with ([f; t] ++ be_put 2 (8 - 4) ++ be_put 3 (hd_seq h) ++ [old]) by reflexivity end.
    unfold himg, front, last_octet. rewrite Es. destruct (hd_prio h) as [p|] eqn:Ep; cbn [is_some]; reflexivity.
Qed.

(* ---------------------------------------------------------------- osmo_pfcp_msg_encode() *)
Lemma holds_split m b : holds m b -> cm_mem b = mb_buf m ++ dropN (cm_tail b) (cm_mem b) /\ lenN (mb_buf m) = cm_tail b.
Proof.
  intros (H1 & H2 & _). rewrite <- H2. split; [symmetry; apply takeN_dropN|apply lenN_takeN, H1].
Qed.
Lemma follow_ok be m b : holds m b -> c_follow_on be b (cm_mem b) = (old_buf m ++ dropN (cm_tail b) (cm_mem b), Ok tt).
Proof.
  intros H. destruct (holds_split m b H) as [E L]. destruct H as (_ & _ & _ & _ & H4). unfold c_follow_on, old_buf. rewrite H4, L.
  set (R := dropN (cm_tail b) (cm_mem b)) in *. clearbody R. rewrite E. destruct (mb_l4 m) as [o|]; [|reflexivity]. destruct (N.ltb_spec o (cm_tail b)) as [D|D]; [|reflexivity].
  unfold set_follow_on. destruct (nth_error (mb_buf m) (N.to_nat o)) as [x|] eqn:X; [|apply nth_error_None in X; unfold lenN in L; lia].
  assert (P1 : takeN 1 (dropN o (mb_buf m)) = [x]).
  { unfold takeN, dropN. change (N.to_nat 1) with 1%nat. revert X. generalize (N.to_nat o). intros i. clear. revert i. induction (mb_buf m) as [|y l IH]; intros [|i] X; cbn in *; try discriminate; [congruence|exact (IH i X)]. }
  unfold bindm, MemModel.rd. pose proof (peek_in [] (mb_buf m) R 0 o 1 eq_refl ltac:(lia)) as PK. rewrite N.add_0_l in PK. cbn [app] in PK. rewrite PK, P1.
  change (be_get [x]) with x. rewrite follow_stored. pose proof (wr_in [] (mb_buf m) R 0 o [N.lor x 4] eq_refl) as W. rewrite N.add_0_l in W. cbn [app] in W. apply W.
  change (lenN [N.lor x 4]) with 1. lia.
Qed.
Lemma set_octet_img pre h len x old y : with_octet (lenN pre + hdr_size (is_some (hd_seid h)) - 1) (last_octet h old) (mkMsgb (pre ++ hdr_bytes h len ++ x) (fst y) (fst (snd y)) (snd (snd y)))
  = mkMsgb (pre ++ himg h old len ++ x) (fst y) (fst (snd y)) (snd (snd y)).
Proof.
  unfold with_octet. cbn [mb_buf mb_cap mb_l3 mb_l4]. f_equal. rewrite <- himg_zero. unfold himg. set (F := front h len).
  pose proof (front_len h len) as LF. fold F in LF. set (n := lenN pre + hdr_size (is_some (hd_seid h)) - 1).
  assert (EN : n = lenN (pre ++ F)) by (unfold n; rewrite lenN_app, LF; unfold hdr_size; destruct (is_some _); lia).
  rewrite EN. replace (pre ++ (F ++ [last_octet h 0]) ++ x) with ((pre ++ F) ++ [last_octet h 0] ++ x) by (rewrite <- !app_assoc; reflexivity).
  rewrite takeN_app. rewrite dropN_app_ge by lia. replace (lenN (pre ++ F) + 1 - lenN (pre ++ F)) with 1 by lia. change (dropN 1 ([last_octet h 0] ++ x)) with x.
  rewrite <- !app_assoc. reflexivity.
Qed.
Lemma holds_mk buf R cap l3 l4 : lenN buf + lenN R = cap -> holds (mkMsgb buf cap l3 l4) (mkCm (buf ++ R) (lenN buf) l3 l4).
Proof.
  intros L. unfold holds. cbn [cm_mem cm_tail cm_l3 cm_l4 mb_buf mb_cap mb_l3 mb_l4]. rewrite lenN_app. split; [lia|]. split; [apply takeN_app|]. split; [exact L|]. auto.
Qed.

Definition m_tail (cap : N) (pre HBY : list N) (t : N) (ies : list (slot iev)) (l3 : N) : mres :=
  let a := lenN pre in
  let mk buf := mkMsgb buf cap (Some l3) (Some a) in
  match encode_tlv cap (pre ++ HBY) t ies with
  | EUB u => MUB u
  | EErr buf e => MErr (mk buf) e
  | EOk buf2 =>
    match set_message_length buf2 a (lenN buf2 - a) with
    | Ok buf3 => MOk (mk buf3)
    | Err e => MErr (mk buf2) e
    | UB u => MUB u
    end
  end.
Definition c_tail (mem1 pre : list N) (size t : N) (ies : list (slot iev)) (l3 : N) : cmres :=
  let a := lenN pre in
  let mk mem tail := mkCm mem tail (Some l3) (Some a) in
  match encode_tlv (lenN mem1) (takeN (a + size) mem1) t ies with
  | EOk buf =>
    let mem2 := buf ++ dropN (lenN buf) mem1 in
    match c_set_length a (lenN buf - a) mem2 with
    | (mem3, Ok _) => COk (mk mem3 (lenN buf))
    | (mem3, Err e) => CErr (mk mem3 (lenN buf)) e
    | (_, UB u) => CUB u
    end
  | EErr buf e => CErr (mk (buf ++ dropN (lenN buf) mem1) (lenN buf)) e
  | EUB u => CUB u
  end.
Lemma over_len h old len len' x : overwrite (himg h old len ++ x) 2 (be_put 2 len') = himg h old len' ++ x.
Proof.
  unfold himg, front. set (f := hdr_flags _ _ _ _). set (t := hd_type h mod 256). rewrite <- !app_assoc.
  exact (overwrite_mid [f; t] (be_put 2 len) (be_put 2 len') _ ltac:(rewrite !be_put_lenN; reflexivity)).
Qed.
Lemma encode_room t cap buf ies : lenN buf <= cap -> match encode_tlv cap buf t ies with EOk b | EErr b _ => (exists x, b = buf ++ x) /\ lenN b <= cap | EUB _ => True end.
Proof.
  intros L. unfold encode_tlv, msg_table. destruct (get_msg_coding t) as [tab|]; cbn [option_map].
  - exact (gtlvs_encode_app t16l16v 4 65535 hdr_t16l16v tag16 t16l16v_fixed (map ptab tab) cap buf ies (tabs_cfgs _ tab) L).
  - cbn. split; [exists []; rewrite app_nil_r; reflexivity|exact L].
Qed.
(* from the IEs on *)
Lemma tails pre h old R' ies l3 cap : let size := hdr_size (is_some (hd_seid h)) in cap = lenN pre + size + lenN R' ->
  let done (m' : msgb) (b' : cmsgb) := exists len x, lenN x <= lenN R' /\ m' = mkMsgb (pre ++ hdr_bytes h len ++ x) cap (Some l3) (Some (lenN pre))
    /\ b' = mkCm ((pre ++ himg h old len ++ x) ++ dropN (lenN x) R') (lenN (pre ++ himg h old len ++ x)) (Some l3) (Some (lenN pre)) in
  let r := c_tail (pre ++ himg h old (size - 4) ++ R') pre size (hd_type h) ies l3 in
  match m_tail cap pre (hdr_bytes h (size - 4)) (hd_type h) ies l3 with
  | MOk m' => exists b', r = COk b' /\ done m' b'
  | MErr m' e => exists b', r = CErr b' e /\ done m' b'
  | MUB u => r = CUB u
  end.
Proof.
  intros size HC done r. unfold r, c_tail. cbv zeta.
  set (HB := hdr_bytes h (size - 4)). set (HI := himg h old (size - 4)).
  assert (LI : lenN HI = size) by apply himg_len. assert (LB : lenN HB = size) by (unfold HB; rewrite <- himg_zero; apply himg_len).
  assert (LC : lenN (pre ++ HI ++ R') = cap) by (rewrite !lenN_app; lia).
  assert (TK : takeN (lenN pre + size) (pre ++ HI ++ R') = pre ++ HI) by (replace (lenN pre + size) with (lenN (pre ++ HI)) by (rewrite lenN_app; lia); rewrite app_assoc; apply takeN_app).
  rewrite LC, TK. unfold m_tail. cbv zeta.
  pose proof (gtlvs_encode_sync t16l16v (msg_table (hd_type h)) cap (pre ++ HB) (pre ++ HI) ies ltac:(rewrite !lenN_app; lia)) as SY.
  pose proof (encode_room (hd_type h) cap (pre ++ HB) ies ltac:(rewrite !lenN_app; lia)) as RM.
  fold (encode_tlv cap (pre ++ HB) (hd_type h) ies) in SY. fold (encode_tlv cap (pre ++ HI) (hd_type h) ies) in SY.
  assert (DR : forall x, lenN x <= lenN R' -> dropN (lenN ((pre ++ HI) ++ x)) (pre ++ HI ++ R') = dropN (lenN x) R').
  { intros x LX. rewrite !lenN_app. rewrite dropN_app_ge by lia. rewrite dropN_app_ge by lia. f_equal. lia. }
  destruct (encode_tlv cap (pre ++ HB) (hd_type h) ies) as [b|b e|u], (encode_tlv cap (pre ++ HI) (hd_type h) ies) as [b2|b2 e2|u2]; cbn [esync] in SY; try contradiction.
  - destruct SY as (x & -> & ->). destruct RM as [_ RM]. assert (LX : lenN x <= lenN R') by (rewrite !lenN_app in RM; lia). rewrite (DR x LX).
    replace (lenN ((pre ++ HB) ++ x) - lenN pre) with (size + lenN x) by (rewrite !lenN_app; lia). replace (lenN ((pre ++ HI) ++ x) - lenN pre) with (size + lenN x) by (rewrite !lenN_app; lia).
    unfold set_message_length, c_set_length, hdr_common_size.
    destruct (N.ltb_spec (size + lenN x) 4) as [D4|D4]; [exfalso; unfold size, hdr_size in D4; destruct (is_some _); lia|].
    destruct (N.ltb_spec 65535 (size + lenN x - 4)) as [D|D]; cbn [lift].
    + eexists. split; [reflexivity|]. exists (size - 4), x. split; [exact LX|]. rewrite <- !app_assoc. split; reflexivity.
    + assert (O : forall M, lenN M = size -> lenN (M ++ x) = size + lenN x) by (intros M LM; rewrite lenN_app, LM; reflexivity).
      replace (((pre ++ HI) ++ x) ++ dropN (lenN x) R') with (pre ++ (HI ++ x) ++ dropN (lenN x) R') by (rewrite <- !app_assoc; reflexivity).
      rewrite wr_in; [|reflexivity|rewrite (O HI LI), be_put_lenN; change (N.of_nat 2) with 2; unfold size, hdr_size; destruct (is_some _); lia].
      unfold HI at 1. rewrite over_len. eexists. split; [reflexivity|]. exists (size + lenN x - 4), x. split; [exact LX|]. split.
      * f_equal. rewrite <- app_assoc. rewrite overwrite_app by lia. f_equal. replace (lenN pre + 2 - lenN pre) with 2 by lia. unfold HB. rewrite <- !himg_zero. apply over_len.
      * f_equal; [rewrite <- !app_assoc; reflexivity|]. rewrite !lenN_app, !himg_len. lia.
  - destruct SY as [(x & -> & ->) <-]. destruct RM as [_ RM]. assert (LX : lenN x <= lenN R') by (rewrite !lenN_app in RM; lia). rewrite (DR x LX).
    eexists. split; [reflexivity|]. exists (size - 4), x. split; [exact LX|]. rewrite <- !app_assoc. split; reflexivity.
  - subst u2. reflexivity.
Qed.
Theorem encode_in_memory be m b h ies : holds m b -> bytes_ok (cm_mem b) ->
  let size := hdr_size (is_some (hd_seid h)) in
  let old := nth (N.to_nat (cm_tail b + size - 1)) (cm_mem b) 0 in
  let fix_octet := with_octet (cm_tail b + size - 1) (last_octet h old) in
  match msg_encode m h ies with
  | MOk m' => exists b', c_msg_encode be b h ies = COk b' /\ holds (fix_octet m') b' /\ dropN (cm_tail b') (cm_mem b') = dropN (cm_tail b') (cm_mem b)
  | MErr m' e => exists b', c_msg_encode be b h ies = CErr b' e /\ holds (fix_octet m') b' /\ dropN (cm_tail b') (cm_mem b') = dropN (cm_tail b') (cm_mem b)
  | MUB u => c_msg_encode be b h ies = CUB u
  end.
Proof.
  intros H HB size old fix_octet. pose proof (follow_ok be m b H) as FO. destruct (holds_split m b H) as [E L]. destruct H as (H1 & H2 & H3 & H4 & H5).
  unfold c_msg_encode. rewrite FO. cbv zeta. unfold msg_encode. fold (old_buf m). rewrite old_buf_len. set (a := cm_tail b) in *.
  set (R := dropN a (cm_mem b)) in *. assert (LR : lenN (cm_mem b) = a + lenN R) by (rewrite E, lenN_app, L; reflexivity).
  assert (LO : lenN (old_buf m) = a) by (rewrite old_buf_len; exact L). rewrite lenN_app, LO. unfold enc_pfcp_header. rewrite LO, L. fold size.
  rewrite <- H3, LR, H4. replace (a + lenN R - a) with (lenN R) by lia. destruct (N.ltb_spec (lenN R) size) as [D|D]; [reflexivity|].
  (* split the memory behind the tail *)
  set (M := takeN size R). set (R' := dropN size R). assert (ER : R = M ++ R') by (symmetry; apply takeN_dropN). assert (LM : lenN M = size) by (apply lenN_takeN, D).
  assert (HS : size = 8 \/ size = 16) by (unfold size, hdr_size; destruct (is_some _); auto).
  assert (OM : dropN (size - 1) M = [old]).
  { unfold old. rewrite E. assert (X : nth (N.to_nat (a + size - 1)) (mb_buf m ++ R) 0 = nth (N.to_nat (size - 1)) M 0).
    { rewrite app_nth2 by (unfold lenN in L; lia). rewrite ER, app_nth1 by (unfold lenN in *; lia). f_equal. unfold lenN in L. lia. }
    rewrite X. destruct HS as [HS|HS]; rewrite HS in *; clearbody M; clear - LM.
    - do 8 (destruct M as [|? M]; [vm_compute in LM; discriminate LM|]). destruct M; [reflexivity|exfalso; rewrite !lenN_cons in LM; lia].
    - do 16 (destruct M as [|? M]; [vm_compute in LM; discriminate LM|]). destruct M; [reflexivity|exfalso; rewrite !lenN_cons in LM; lia]. }
  assert (OB : old < 256).
  { assert (G : bytes_ok R) by (apply bytes_ok_dropN, HB). rewrite ER in G. apply Forall_app in G as [G _]. apply (bytes_ok_dropN (size - 1)) in G. rewrite OM in G. apply Forall_inv in G. exact G. }
  pose proof (store_in be (old_buf m) M R' h a old LO LM OM OB) as ST. rewrite <- ER in ST. rewrite ST. clear ST. fold size.
  set (pre := old_buf m) in *. set (S0 := size - 4). set (HI := himg h old S0). set (HBY := hdr_bytes h S0).
  assert (LHI : lenN HI = size) by apply himg_len. assert (LHB : lenN HBY = size) by (unfold HBY; rewrite <- himg_zero; apply himg_len).
  change hdr_common_size with 4. fold S0. fold HBY. set (l3 := match mb_l3 m with Some x => x | None => a end).
  (* the octet that may differ *)
  assert (FX : forall len x, fix_octet (mkMsgb (pre ++ hdr_bytes h len ++ x) (a + lenN R) (Some l3) (Some a)) = mkMsgb (pre ++ himg h old len ++ x) (a + lenN R) (Some l3) (Some a)).
  { intros len x. unfold fix_octet. rewrite <- LO. exact (set_octet_img pre h len x old (lenN pre + lenN R, (Some l3, Some (lenN pre)))). }
  (* memory after x was appended *)
  assert (TL : forall len x, lenN x <= lenN R' -> dropN (lenN (pre ++ himg h old len ++ x)) (cm_mem b) = dropN (lenN x) R').
  { intros len x LX. rewrite !lenN_app, LO, himg_len. fold size. rewrite E. rewrite dropN_app_ge by lia. rewrite L. replace (a + (size + lenN x) - a) with (size + lenN x) by lia.
    rewrite ER, dropN_app_ge by lia. f_equal. lia. }
  assert (LR' : lenN R = size + lenN R') by (rewrite ER at 1; rewrite lenN_app; lia).
  assert (FIN : forall m' b', (exists len x, lenN x <= lenN R' /\ m' = mkMsgb (pre ++ hdr_bytes h len ++ x) (a + lenN R) (Some l3) (Some (lenN pre))
      /\ b' = mkCm ((pre ++ himg h old len ++ x) ++ dropN (lenN x) R') (lenN (pre ++ himg h old len ++ x)) (Some l3) (Some (lenN pre))) ->
      holds (fix_octet m') b' /\ dropN (cm_tail b') (cm_mem b') = dropN (cm_tail b') (cm_mem b)).
  { intros m' b' (len & x & LX & -> & ->). rewrite LO. rewrite FX. cbn [cm_mem cm_tail]. split; [|rewrite (TL len x LX); apply dropN_app].
    apply holds_mk. rewrite !lenN_app, lenN_dropN, himg_len. fold size. lia. }
  pose proof (tails pre h old R' ies l3 (a + lenN R) ltac:(fold size; lia)) as T. cbv zeta in T. fold size in T. fold S0 in T. fold HBY HI in T.
  assert (G : match m_tail (a + lenN R) pre HBY (hd_type h) ies l3 with
    | MOk m' => exists b', c_tail (pre ++ HI ++ R') pre size (hd_type h) ies l3 = COk b' /\ holds (fix_octet m') b' /\ dropN (cm_tail b') (cm_mem b') = dropN (cm_tail b') (cm_mem b)
    | MErr m' e => exists b', c_tail (pre ++ HI ++ R') pre size (hd_type h) ies l3 = CErr b' e /\ holds (fix_octet m') b' /\ dropN (cm_tail b') (cm_mem b') = dropN (cm_tail b') (cm_mem b)
    | MUB u => c_tail (pre ++ HI ++ R') pre size (hd_type h) ies l3 = CUB u
    end).
  { destruct (m_tail (a + lenN R) pre HBY (hd_type h) ies l3) as [m'|m' e|u]; [| |exact T]; destruct T as (b' & E1 & E2); exists b'; (split; [exact E1|exact (FIN m' b' E2)]). }
  clear T. unfold m_tail, c_tail in G. cbv zeta in G. rewrite LO in G.
  destruct (hd_seid h) as [s|] eqn:Es; [exact G|]. destruct (hd_prio h) as [p|] eqn:Ep; [|exact G].
  exists (mkCm (pre ++ HI ++ R') (a + size) (Some l3) (Some a)). split; [reflexivity|].
  pose proof (FX S0 []) as F. rewrite !app_nil_r in F. fold HBY HI in F. rewrite F. cbn [cm_mem cm_tail].
  replace (a + size) with (lenN (pre ++ HI)) by (rewrite lenN_app; lia). rewrite app_assoc. split; [apply holds_mk; rewrite lenN_app; lia|].
  pose proof (TL S0 [] ltac:(change (lenN (@nil N)) with 0; lia)) as T. rewrite !app_nil_r in T. fold HI in T. rewrite T. change (dropN (lenN (@nil N)) R') with R'. apply dropN_app.
Qed.

(* ---------------------------------------------------------------- osmo_pfcp_msg_decode_header() *)
Lemma be_get_one l : lenN l = 1 -> be_get l = nth 0 l 0.
Proof. destruct l as [|x [|y l]]; intros H; [vm_compute in H; discriminate H|reflexivity|exfalso; rewrite !lenN_cons in H; lia]. Qed.
Theorem decode_in_memory be m data_len : bytes_ok m -> data_len <= lenN m -> c_decode_header be m data_len = decode_header m data_len.
Proof.
  intros HB HL. unfold c_decode_header, decode_header, hdr_common_size. destruct (data_len =? 0); [reflexivity|]. destruct (N.ltb_spec data_len 4) as [D|D]; [reflexivity|].
  assert (PK : forall a n, a + n <= data_len -> peek a n m = Ok (takeN n (dropN a m))).
  { intros a n L. unfold peek. destruct (N.leb_spec (a + n) (lenN m)); [reflexivity|lia]. }
  assert (RD : forall a n, a + n <= data_len -> rd_be n (dropN a m) = Ok (be_get (takeN n (dropN a m)))).
  { intros a n L. unfold rd_be, rdN. rewrite lenN_dropN. destruct (N.leb_spec n (lenN m - a)); [reflexivity|lia]. }
  assert (R4 : rdN 4 m = Ok (takeN 4 m)) by (unfold rdN; destruct (N.leb_spec 4 (lenN m)); [reflexivity|lia]).
  rewrite R4. rewrite (PK 0 1), (PK 1 1), (PK 2 2) by lia. cbn [bind].
  assert (E : exists x0 x1 x2 x3 r, m = x0 :: x1 :: x2 :: x3 :: r).
  { destruct m as [|x0 [|x1 [|x2 [|x3 r]]]]; try (exfalso; unfold lenN in HL; cbn [length] in HL; lia). do 5 eexists. reflexivity. }
  destruct E as (x0 & x1 & x2 & x3 & r & E).
  assert (F0 : be_get (takeN 1 (dropN 0 m)) = x0) by (rewrite E; reflexivity). assert (F1 : be_get (takeN 1 (dropN 1 m)) = x1) by (rewrite E; reflexivity).
  assert (F2 : takeN 2 (dropN 2 m) = [x2; x3]) by (rewrite E; reflexivity). assert (F4 : takeN 4 m = [x0; x1; x2; x3]) by (rewrite E; reflexivity).
  rewrite F0, F1, F2, F4. cbn [nth]. change (dropN 2 [x0; x1; x2; x3]) with [x2; x3].
  assert (B0 : x0 < 256) by (rewrite E in HB; apply Forall_inv in HB; exact HB). destruct (bits_loaded be x0 B0) as (S1 & S2 & S3 & _). rewrite S1, S2, S3.
  assert (HS : (if negb (flag x0 1) then 8 else 16) = hdr_size (flag x0 1)) by (unfold hdr_size; destruct (flag x0 1); reflexivity). rewrite HS.
  destruct (N.ltb_spec data_len (hdr_size (flag x0 1))) as [D2|D2]; [reflexivity|]. destruct (N.ltb_spec data_len (be_get [x2; x3] + 4)) as [D3|D3]; [reflexivity|].
  destruct (flag x0 1); cbn [negb] in *; cbn [hdr_size] in D2.
  - rewrite (PK 4 8), (PK 12 3), (PK 15 1), (RD 4 8), (RD 12 3), (RD 15 1) by lia. cbn [bind]. rewrite negb_involutive.
    set (z := be_get (takeN 1 (dropN 15 m))).
    assert (BZ : z < 256).
    { unfold z. rewrite be_get_one by (apply lenN_takeN; rewrite lenN_dropN; lia). assert (G : bytes_ok (takeN 1 (dropN 15 m))) by (apply bytes_ok_takeN, bytes_ok_dropN, HB).
      destruct (takeN 1 (dropN 15 m)) as [|y l]; [vm_compute; reflexivity|]. apply Forall_inv in G. exact G. }
    destruct (bits_loaded be z BZ) as (_ & _ & _ & S4). rewrite S4. destruct (flag x0 2); reflexivity.
  - rewrite (PK 4 3), (RD 4 3) by lia. cbn [bind]. rewrite negb_involutive. reflexivity.
Qed.
(* a header with other spare bits means the same *)
Lemma last_octet_low h old : match hd_seid h, hd_prio h with Some _, Some p => last_octet h old mod 16 = p mod 16 | _, _ => True end.
Proof.
  unfold last_octet. destruct (hd_seid h), (hd_prio h) as [p|]; try exact Logic.I. rewrite N.add_comm, N.mul_comm, N.mod_add by discriminate. apply N.mod_mod. discriminate.
Qed.
Lemma flags_flag h v : let f := hdr_flags (is_some (hd_seid h)) (is_some (hd_prio h)) false v in flag f 1 = is_some (hd_seid h) /\ flag f 2 = is_some (hd_prio h).
Proof.
  unfold hdr_flags. assert (L : v mod 8 < 8) by (apply N.mod_lt; discriminate). set (x := v mod 8) in *. clearbody x. 
  assert (E : x = 0 \/ x = 1 \/ x = 2 \/ x = 3 \/ x = 4 \/ x = 5 \/ x = 6 \/ x = 7) by lia.
  destruct (is_some (hd_seid h)), (is_some (hd_prio h)); repeat (destruct E as [->|E]; [vm_compute; auto|]); subst x; vm_compute; auto.
Qed.
Lemma decode_stale h old len rest n : decode_header (himg h old len ++ rest) n = decode_header (hdr_bytes h len ++ rest) n.
Proof.
  rewrite <- himg_zero. unfold himg. rewrite <- !app_assoc. set (F := front h len). unfold decode_header. destruct (n =? 0); [reflexivity|]. destruct (_ <? _); [reflexivity|].
  assert (TK : forall (y : list N) k, k <= lenN F -> takeN k (F ++ y) = takeN k F) by (intros y k L; apply takeN_app_le, L).
  pose proof (front_len h len) as LF. fold F in LF.
  assert (L7 : 7 <= lenN F) by (rewrite LF; unfold hdr_size; destruct (is_some _); lia).
  assert (RN : forall y k, k <= lenN F -> rdN k (F ++ y) = Ok (takeN k F)).
  { intros y k L. unfold rdN. rewrite lenN_app. destruct (N.leb_spec k (lenN F + lenN y)); [rewrite (TK y k L); reflexivity|lia]. }
  unfold hdr_common_size. rewrite !RN by lia. cbn [bind].
  assert (E0 : nth 0 (takeN 4 F) 0 = hdr_flags (is_some (hd_seid h)) (is_some (hd_prio h)) false (hd_version h)) by reflexivity. rewrite E0.
  destruct (flags_flag h (hd_version h)) as [G1 G2]. cbv zeta in G1, G2. rewrite G1, G2.
  assert (RB : forall y a k, a + k <= lenN F -> rd_be k (dropN a (F ++ y)) = Ok (be_get (takeN k (dropN a F)))).
  { intros y a k L. unfold rd_be, rdN. rewrite dropN_app_le by lia. rewrite lenN_app, lenN_dropN. destruct (N.leb_spec k (lenN F - a + lenN y)); [|lia]. cbn [bind].
    rewrite takeN_app_le by (rewrite lenN_dropN; lia). reflexivity. }
  destruct (_ <? _); [reflexivity|]. destruct (_ <? _); [reflexivity|].
  destruct (hd_seid h) as [s|] eqn:Es; cbn [is_some negb hdr_size] in *.
  - rewrite !(RB _ 4 8), !(RB _ 12 3) by lia. cbn [bind].
    assert (RL : forall x, rd_be 1 (dropN 15 (F ++ [x] ++ rest)) = Ok x).
    { intros x. unfold rd_be, rdN. replace 15 with (lenN F) by lia. rewrite dropN_app, lenN_app. change (lenN [x]) with 1. destruct (N.leb_spec 1 (1 + lenN rest)); [reflexivity|lia]. }
    rewrite !RL. cbn [bind]. destruct (hd_prio h) as [p|] eqn:Ep; cbn [is_some]; [|reflexivity].
    pose proof (last_octet_low h old) as A. pose proof (last_octet_low h 0) as B. rewrite Es, Ep in A, B. rewrite A, B. reflexivity.
  - rewrite !RB by lia. reflexivity.
Qed.
