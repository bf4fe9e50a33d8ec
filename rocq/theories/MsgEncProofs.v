From Verif Require Import Base BaseProofs GtlvModel GtlvSpec GtlvProofs DecEncModel DecEncSpec DecEncProofs
  EncAppendProofs WfProofs GtlvInst IesModel IesSpec IesProofs TablesModel MsgModel MsgSpec MsgProofs.

(* ---------------------------------------------------------------- encoding one message *)

Definition hdr_tail (h : hdr) : list N :=
  match hd_seid h with
  | None => be_put 3 (hd_seq h) ++ [0]
  | Some s => be_put 8 s ++ be_put 3 (hd_seq h) ++ [match hd_prio h with Some p => p mod 16 | None => 0 end]
  end.
Definition hdr_first (h : hdr) : list N :=
  [hdr_flags (is_some (hd_seid h)) (is_some (hd_prio h)) false (hd_version h); hd_type h mod 256].
Lemma hdr_bytes_eq h len : hdr_bytes h len = hdr_first h ++ be_put 2 len ++ hdr_tail h.
Proof. reflexivity. Qed.

Lemma takeN_len_app {A} n (a b c : list A) : n = lenN a + lenN b -> takeN n (a ++ b ++ c) = a ++ b.
Proof. intros ->. rewrite app_assoc. apply takeN_app'. rewrite lenN_app. reflexivity. Qed.

Lemma set_len_hdr buf h len bs total : total = hdr_len h + lenN bs -> total - 4 <= 65535 ->
  set_message_length (buf ++ hdr_bytes h len ++ bs) (lenN buf) total = Ok (buf ++ hdr_bytes h (total - 4) ++ bs).
Proof.
  intros Ht Hm. assert (Hhl : hdr_len h = 8 \/ hdr_len h = 16) by (unfold hdr_len; destruct (hd_seid h); auto).
  unfold set_message_length, hdr_common_size. dif E1; [lia|]. dif E2; [lia|]. f_equal. unfold overwrite.
  rewrite !hdr_bytes_eq. rewrite <- !app_assoc.
  rewrite (app_assoc buf (hdr_first h)). rewrite takeN_app' by (rewrite lenN_app; reflexivity).
  rewrite (app_assoc (buf ++ hdr_first h) (be_put 2 len)).
  rewrite dropN_app' by (rewrite !lenN_app, !be_put_lenN; reflexivity).
  rewrite <- !app_assoc. reflexivity.
Qed.

Definition old_buf (m : msgb) : list N :=
  match mb_l4 m with
  | Some o => if o <? lenN (mb_buf m) then set_follow_on (mb_buf m) o else mb_buf m
  | None => mb_buf m
  end.
Lemma set_follow_on_len buf o : lenN (set_follow_on buf o) = lenN buf.
Proof.
  unfold set_follow_on. destruct (nth_error buf (N.to_nat o)) as [b|] eqn:E; [|reflexivity].
  apply overwrite_lenN. assert (nth_error buf (N.to_nat o) <> None) as H by congruence. apply nth_error_Some in H. rewrite lenN_cons. change (lenN (@nil N)) with 0. unfold lenN. lia.
Qed.
Lemma old_buf_len m : lenN (old_buf m) = lenN (mb_buf m).
Proof. unfold old_buf. destruct (mb_l4 m) as [o|]; [|reflexivity]. dif E; [apply set_follow_on_len|reflexivity]. Qed.

Definition l3_of (m : msgb) : N := match mb_l3 m with Some x => x | None => lenN (mb_buf m) end.

(* every successful encoding: the old contents (FO flag set), then header and IEs, with an exact length *)
Lemma msg_encode_ok m h ies m' : lenN (mb_buf m) <= mb_cap m -> msg_encode m h ies = MOk m' ->
  exists bs, encode_tlv (mb_cap m) (old_buf m ++ hdr_bytes h (hdr_len h - 4)) (hd_type h) ies
                = EOk (old_buf m ++ hdr_bytes h (hdr_len h - 4) ++ bs)
    /\ hdr_len h - 4 + lenN bs <= 65535
    /\ m' = mkMsgb (old_buf m ++ hdr_bytes h (hdr_len h - 4 + lenN bs) ++ bs) (mb_cap m) (Some (l3_of m)) (Some (lenN (mb_buf m)))
    /\ lenN (mb_buf m') <= mb_cap m /\ (hd_prio h = None \/ hd_seid h <> None).
Proof.
  intros Hcap H. unfold msg_encode in H. fold (old_buf m) in H. rewrite !old_buf_len in H. fold (l3_of m) in H.
  unfold enc_pfcp_header in H. rewrite old_buf_len in H. rewrite hdr_size_len in H. dif_in H E1; [discriminate|].
  assert (Hhl : hdr_len h = 8 \/ hdr_len h = 16) by (unfold hdr_len; destruct (hd_seid h); auto).
  change hdr_common_size with 4 in H.
  set (b1 := old_buf m ++ hdr_bytes h (hdr_len h - 4)) in *.
  assert (Hb1 : lenN b1 = lenN (mb_buf m) + hdr_len h) by (unfold b1; rewrite lenN_app, old_buf_len, hdr_bytes_len; reflexivity).
  assert (Hps : hd_prio h = None \/ hd_seid h <> None).
  { destruct (hd_seid h); [right; discriminate|]. destruct (hd_prio h); [discriminate|auto]. }
  assert (H' : match encode_tlv (mb_cap m) b1 (hd_type h) ies with
       | EOk buf2 => match set_message_length buf2 (lenN (mb_buf m)) (lenN buf2 - lenN (mb_buf m)) with
          | Ok buf3 => MOk (mkMsgb buf3 (mb_cap m) (Some (l3_of m)) (Some (lenN (mb_buf m))))
          | Err e => MErr (mkMsgb buf2 (mb_cap m) (Some (l3_of m)) (Some (lenN (mb_buf m)))) e
          | UB u => MUB u end
       | EErr buf e => MErr (mkMsgb buf (mb_cap m) (Some (l3_of m)) (Some (lenN (mb_buf m)))) e
       | EUB u => MUB u end = MOk m').
  { destruct (hd_seid h), (hd_prio h); try exact H; discriminate. }
  clear H. destruct (encode_tlv (mb_cap m) b1 (hd_type h) ies) as [b2|b2 e|u] eqn:E; try discriminate.
  assert (Hb2 : (exists x, b2 = b1 ++ x) /\ lenN b2 <= mb_cap m).
  { unfold encode_tlv, msg_table in E. destruct (get_msg_coding (hd_type h)) as [tab|]; cbn [option_map] in E; [|discriminate].
    pose proof (gtlvs_encode_app t16l16v 4 65535 hdr_t16l16v tag16 t16l16v_fixed (map ptab tab) (mb_cap m) b1 ies) as HA.
    rewrite E in HA. apply HA; [apply tabs_cfgs|lia]. }
  destruct Hb2 as ((bs & ->) & Hl2). exists bs. unfold b1 in H'. rewrite <- app_assoc in H'.
  replace (lenN (old_buf m ++ hdr_bytes h (hdr_len h - 4) ++ bs) - lenN (mb_buf m)) with (hdr_len h + lenN bs) in H'
    by (rewrite !lenN_app, old_buf_len, hdr_bytes_len; lia).
  destruct (N.leb_spec (hdr_len h + lenN bs - 4) 65535) as [Hm|Hm].
  - rewrite <- (old_buf_len m) in H' at 1. rewrite set_len_hdr in H' by (reflexivity || exact Hm). injection H' as <-.
    split; [unfold b1; rewrite <- app_assoc; reflexivity|]. split; [lia|].
    replace (hdr_len h + lenN bs - 4) with (hdr_len h - 4 + lenN bs) by lia. split; [reflexivity|].
    split; [|exact Hps]. change (lenN (old_buf m ++ hdr_bytes h (hdr_len h - 4 + lenN bs) ++ bs) <= mb_cap m). rewrite lenN_app in Hl2. rewrite !lenN_app, old_buf_len, hdr_bytes_len. lia.
  - unfold set_message_length, hdr_common_size in H'. dif_in H' E2; [discriminate|]. dif_in H' E3; [discriminate|lia].
Qed.

(* a valid message that fits is encoded to its wire form *)
Lemma msg_encode_wire m h ies bs : valid_msg h ies bs -> lenN (mb_buf m) + hdr_len h + lenN bs <= mb_cap m ->
  msg_encode m h ies =
    MOk (mkMsgb (old_buf m ++ wire_hdr h false (lenN bs) ++ bs) (mb_cap m) (Some (l3_of m)) (Some (lenN (mb_buf m)))).
Proof.
  intros (Hh & tab & Ht & Hv & Hw & Hl) Hfit.
  assert (Hhl : hdr_len h = 8 \/ hdr_len h = 16) by (unfold hdr_len; destruct (hd_seid h); auto).
  unfold msg_encode. fold (old_buf m). rewrite !old_buf_len. fold (l3_of m).
  unfold enc_pfcp_header. rewrite old_buf_len. rewrite hdr_size_len. dif E1; [lia|].
  change hdr_common_size with 4.
  assert (Hps : forall A (x y : A), match hd_seid h, hd_prio h with None, Some _ => x | _, _ => y end = y).
  { intros A x y. destruct Hh as (_ & _ & _ & Hh). destruct (hd_seid h); [reflexivity|]. rewrite Hh. reflexivity. }
  rewrite Hps.
  rewrite (encode_tlv_wire _ tab _ bs) by (try assumption; rewrite ?lenN_app, ?old_buf_len, ?hdr_bytes_len; lia).
  rewrite <- app_assoc.
  replace (lenN (old_buf m ++ hdr_bytes h (hdr_len h - 4) ++ bs) - lenN (mb_buf m)) with (hdr_len h + lenN bs)
    by (rewrite !lenN_app, old_buf_len, hdr_bytes_len; lia).
  rewrite <- (old_buf_len m) at 1. rewrite set_len_hdr by (reflexivity || lia).
  rewrite hdr_bytes_wire by (try assumption; lia).
  replace (hdr_len h + lenN bs - 4 - (hdr_len h - 4)) with (lenN bs) by lia. reflexivity.
Qed.

(* encoding fails or aborts, or succeeds, but never touches what is before, beyond the FO flag *)
Lemma msg_encode_err m h ies m' e : lenN (mb_buf m) <= mb_cap m -> msg_encode m h ies = MErr m' e ->
  (exists x, mb_buf m' = old_buf m ++ x) /\ lenN (mb_buf m') <= mb_cap m.
Proof.
  intros Hcap H. unfold msg_encode in H. fold (old_buf m) in H. rewrite !old_buf_len in H. fold (l3_of m) in H.
  unfold enc_pfcp_header in H. rewrite old_buf_len in H. rewrite hdr_size_len in H. dif_in H E1; [discriminate|].
  change hdr_common_size with 4 in H.
  set (b1 := old_buf m ++ hdr_bytes h (hdr_len h - 4)) in *.
  assert (Hb1 : lenN b1 = lenN (mb_buf m) + hdr_len h) by (unfold b1; rewrite lenN_app, old_buf_len, hdr_bytes_len; reflexivity).
  assert (HB : (exists x, b1 = old_buf m ++ x) /\ lenN b1 <= mb_cap m) by (split; [eexists; reflexivity|lia]).
  assert (HX : match encode_tlv (mb_cap m) b1 (hd_type h) ies with
       | EOk buf2 => match set_message_length buf2 (lenN (mb_buf m)) (lenN buf2 - lenN (mb_buf m)) with
          | Ok buf3 => MOk (mkMsgb buf3 (mb_cap m) (Some (l3_of m)) (Some (lenN (mb_buf m))))
          | Err e => MErr (mkMsgb buf2 (mb_cap m) (Some (l3_of m)) (Some (lenN (mb_buf m)))) e
          | UB u => MUB u end
       | EErr buf e => MErr (mkMsgb buf (mb_cap m) (Some (l3_of m)) (Some (lenN (mb_buf m)))) e
       | EUB u => MUB u end = MErr m' e -> (exists x, mb_buf m' = old_buf m ++ x) /\ lenN (mb_buf m') <= mb_cap m).
  { clear H. unfold encode_tlv, msg_table. destruct (get_msg_coding (hd_type h)) as [tab|]; cbn [option_map].
    2: { cbn. intros [= <- <-]. exact HB. }
    pose proof (gtlvs_encode_app t16l16v 4 65535 hdr_t16l16v tag16 t16l16v_fixed (map ptab tab) (mb_cap m) b1 ies) as HA.
    specialize (HA (tabs_cfgs _ _) ltac:(lia)).
    assert (HC : forall b2, (exists x, b2 = b1 ++ x) /\ lenN b2 <= mb_cap m -> (exists x, b2 = old_buf m ++ x) /\ lenN b2 <= mb_cap m).
    { intros b2 ((x & ->) & Hx). split; [|exact Hx]. destruct HB as ((y & ->) & _). exists (y ++ x). rewrite app_assoc. reflexivity. }
    destruct (gtlvs_encode _ _ _ _ _) as [b2|b2 er|u]; cbn in HA; [| |discriminate].
    - destruct (set_message_length b2 _ _) as [b3|er|u]; try discriminate. intros [= <- <-]. apply HC, HA.
    - intros [= <- <-]. apply HC, HA. }
  destruct (hd_seid h) as [sd|]; [apply HX, H|]. destruct (hd_prio h); [|apply HX, H].
  injection H as <- <-. exact HB.
Qed.

(* ---------------------------------------------------------------- bundles *)

Lemma set_follow_on_hdr pre h n x : hd_version h < 8 ->
  set_follow_on (pre ++ wire_hdr h false n ++ x) (lenN pre) = pre ++ wire_hdr h true n ++ x.
Proof.
  intros Hv. unfold set_follow_on. rewrite !wire_hdr_eq.
  rewrite nth_error_app2 by (unfold lenN; lia). replace (N.to_nat (lenN pre) - length pre)%nat with 0%nat by (unfold lenN; lia).
  cbn [app nth_error].
  unfold overwrite. rewrite takeN_app.
  assert (HD : forall (a : N) l, dropN (lenN pre + lenN [N.lor a 4]) (pre ++ a :: l) = l).
  { intros a l. change (pre ++ a :: l) with (pre ++ [a] ++ l). rewrite (app_assoc pre). apply dropN_app'. rewrite lenN_app. reflexivity. }
  destruct (flags_byte_decode h false Hv) as (_ & _ & _ & <-). rewrite HD. reflexivity.
Qed.


(* with a message at the end of the buffer *)
Lemma encode_all_from l : all_valid l -> forall pre h bs cap l3, hd_version h < 8 ->
  lenN (pre ++ wire_bundle ((h, bs) :: strip l)) <= cap ->
  exists m, encode_all (mkMsgb (pre ++ wire_hdr h false (lenN bs) ++ bs) cap l3 (Some (lenN pre))) (msgs_of l) = MOk m
    /\ mb_buf m = pre ++ wire_bundle ((h, bs) :: strip l).
Proof.
  intros Hl. induction Hl as [|[[h' ies'] bs'] l Hv Hl IH]; intros pre h bs cap l3 Hver Hfit.
  - eexists. split; [reflexivity|]. cbn. rewrite app_nil_r. reflexivity.
  - cbn [fst snd] in Hv. cbn [msgs_of map encode_all fst].
    assert (E : wire_bundle ((h, bs) :: strip ((h', ies', bs') :: l)) = wire_hdr h true (lenN bs) ++ bs ++ wire_bundle ((h', bs') :: strip l)) by reflexivity.
    rewrite E in *. clear E.
    assert (Hle : lenN (wire_hdr h' false (lenN bs') ++ bs') <= lenN (wire_bundle ((h', bs') :: strip l))).
    { cbn [wire_bundle]. rewrite !lenN_app, !wire_hdr_len. lia. }
    rewrite !lenN_app, !wire_hdr_len in Hle. rewrite !lenN_app, !wire_hdr_len in Hfit.
    rewrite (msg_encode_wire _ _ _ bs' Hv) by (cbn [mb_buf mb_cap]; rewrite !lenN_app, !wire_hdr_len; lia).
    unfold old_buf. cbn [mb_l4 mb_buf mb_cap].
    assert (Hhl : hdr_len h = 8 \/ hdr_len h = 16) by (unfold hdr_len; destruct (hd_seid h); auto).
    dif E; [|rewrite !lenN_app, !wire_hdr_len in E; lia]. clear E. rewrite set_follow_on_hdr by exact Hver.
    set (pre' := pre ++ wire_hdr h true (lenN bs) ++ bs).
    replace (lenN (pre ++ wire_hdr h false (lenN bs) ++ bs)) with (lenN pre') by (unfold pre'; rewrite !lenN_app, !wire_hdr_len; reflexivity).
    destruct (IH pre' h' bs' cap (Some (l3_of (mkMsgb (pre ++ wire_hdr h false (lenN bs) ++ bs) cap l3 (Some (lenN pre)))))) as (m & Hm & Hb).
    + apply Hv.
    + unfold pre'. rewrite !lenN_app, !wire_hdr_len. lia.
    + exists m. split; [exact Hm|]. rewrite Hb. unfold pre'. rewrite <- !app_assoc. reflexivity.
Qed.
Lemma encode_all_wire l cap : all_valid l -> lenN (wire_bundle (strip l)) <= cap ->
  exists m, encode_all (msgb_new cap) (msgs_of l) = MOk m /\ mb_buf m = wire_bundle (strip l).
Proof.
  intros Hl Hfit. destruct Hl as [|[[h ies] bs] l Hv Hl]; [exists (msgb_new cap); split; reflexivity|].
  cbn [fst snd] in Hv. cbn [msgs_of map encode_all fst].
  assert (Hle : lenN (wire_hdr h false (lenN bs) ++ bs) <= lenN (wire_bundle ((h, bs) :: strip l))).
  { cbn [wire_bundle]. rewrite !lenN_app, !wire_hdr_len. lia. }
  change (wire_bundle (strip ((h, ies, bs) :: l))) with (wire_bundle ((h, bs) :: strip l)) in *.
  rewrite lenN_app, wire_hdr_len in Hle.
  rewrite (msg_encode_wire _ _ _ bs Hv) by (cbn [msgb_new mb_buf mb_cap]; change (lenN (@nil N)) with 0; lia).
  destruct (encode_all_from l Hl [] h bs cap (Some 0)) as (m & Hm & Hb).
  - apply Hv.
  - exact Hfit.
  - exists m. split; [exact Hm|exact Hb].
Qed.

(* ---------------------------------------------------------------- receiving *)

Lemma rx_loop_bundle l : all_valid l -> forall fuel rest, (length (wire_bundle (strip l)) <= fuel)%nat -> In 0 rest ->
  rx_loop fuel (wire_bundle (strip l) ++ rest) (lenN (wire_bundle (strip l))) = map (fun x => RxMsg (fst x) (snd x)) (msgs_of l).
Proof.
  intros Hl. induction Hl as [|[[h ies] bs] l Hv Hl IH]; intros fuel rest Hf Hr; [destruct fuel; reflexivity|].
  cbn [fst snd] in Hv. cbn [msgs_of map fst snd].
  set (fo := match strip l with [] => false | _ => true end).
  change (wire_bundle (strip ((h, ies, bs) :: l))) with (wire_hdr h fo (lenN bs) ++ bs ++ wire_bundle (strip l)) in *.
  destruct Hv as (Hh & tab & Ht & Hv & Hw & Hm).
  assert (Hhl : hdr_len h = 8 \/ hdr_len h = 16) by (unfold hdr_len; destruct (hd_seid h); auto).
  assert (Hlen : lenN (wire_hdr h fo (lenN bs) ++ bs ++ wire_bundle (strip l)) = hdr_len h + lenN bs + lenN (wire_bundle (strip l)))
    by (rewrite !lenN_app, wire_hdr_len; lia).
  assert (HfN : lenN (wire_hdr h fo (lenN bs) ++ bs ++ wire_bundle (strip l)) <= N.of_nat fuel).
  { set (X := wire_hdr h fo (lenN bs) ++ bs ++ wire_bundle (strip l)) in *. clearbody X. unfold lenN. lia. }
  rewrite Hlen in HfN. clear Hf.
  destruct fuel as [|fuel]; [lia|].
  cbn [rx_loop]. rewrite Hlen. dif E; [lia|]. clear E.
  rewrite <- !app_assoc. rewrite decode_header_wire by (try assumption; lia).
  unfold rx_tlv. cbn [dh_h dh_ofs dh_tlv dh_len].
  rewrite dropN_app' by (rewrite wire_hdr_len; reflexivity).
  rewrite (decode_tlv_wire _ tab ies bs) by (assumption || lia || (apply in_or_app; auto)).
  f_equal.
  rewrite (app_assoc _ bs). rewrite dropN_app' by (rewrite lenN_app, wire_hdr_len; reflexivity).
  replace (hdr_len h + lenN bs + lenN (wire_bundle (strip l)) - (hdr_len h + lenN bs)) with (lenN (wire_bundle (strip l))) by lia.
  apply IH; [|exact Hr]. set (X := wire_bundle (strip l)) in *. clearbody X. unfold lenN in HfN. lia.
Qed.

Lemma zeros_app a b : zeros (a + b) = zeros a ++ zeros b.
Proof. induction a as [|a IH]; [reflexivity|]. cbn. rewrite IH. reflexivity. Qed.
Lemma in_zeros n : (0 < n)%nat -> In 0 (zeros n).
Proof. destruct n; [lia|]. intros _. left. reflexivity. Qed.

Lemma rx_datagram_bundle l : all_valid l -> lenN (wire_bundle (strip l)) < alloc_size ->
  rx_datagram (wire_bundle (strip l)) = map (fun x => RxMsg (fst x) (snd x)) (msgs_of l).
Proof.
  intros Hl Hlen. unfold rx_datagram, rx_data. rewrite takeN_all by lia. apply rx_loop_bundle; [exact Hl|lia|]. apply in_zeros. lia.
Qed.
