(* PropertiesIeEnc.v -- C106, C107: the IE encoders and printing functions of pfcp_ies_custom.c load the members of their structs, on any ABI *)
From Coq Require Import String Ascii.
From Verif Require Import Base BaseProofs GtlvModel DecEncModel DecEncProofs CStr IesModel IesSpec IesProofs PutSpec TablesModel MsgModel StrModel StrSpec MemModel MemSpec MemProofs MemTest GenModel GenSpec GenProofs GenPfcp PfcpMem PfcpMemProofs PropertiesStr PropertiesPut IeMemModel IeMemSpec IeMemProofs IeMemStr IeMemDec PropertiesIeMem IeEncModel IeEncSpec IeEncProofs.
Local Open Scope string_scope.
Local Open Scope N_scope.
Local Open Scope list_scope.

(* ---------------------------------------------------------------- C106 *)
(* The encoder, run on the struct: it puts what [enc_of] says for the value that the members hold and returns its code, or aborts if that does not fit. *)
Theorem C106_encode te be sa_img sa_rd k room mem : ie_abi te sa_img sa_rd -> lenN mem = sz te (ktype k) -> strings_end te be k mem ->
  let '(bs, e) := enc_of k room (c_val te be sa_rd k mem) in
  if lenN bs <=? room then c_enc te be sa_rd mem room k = (bs, rc_of e) else exists out, c_enc te be sa_rd mem room k = (out, UB MsgbAbort).
Proof.
  intros HA HL HS. pose proof (all_encode te be sa_rd (abi_laid _ _ _ HA) (proj1 (proj2 HA)) room mem k HL HS) as G. apply E_outcome in G. unfold enc_outcome in G.
  destruct (enc_of k room (c_val te be sa_rd k mem)) as [bs e]. exact G.
Qed.
(* The same in terms of the octets of the IE: a value that can be written is, with success; another one is refused. *)
Theorem C106_octets te be sa_img sa_rd k room mem : ie_abi te sa_img sa_rd -> sockaddr_typed te sa_rd -> lenN mem = sz te (ktype k) -> strings_end te be k mem ->
  let v := c_val te be sa_rd k mem in
  lenN (ie_written k v) <= room ->
  if writable v then c_enc te be sa_rd mem room k = (ie_written k v, Ok tt) else exists b, c_enc te be sa_rd mem room k = (b, Err EINVAL).
Proof.
  intros HA HT HL HS v HR. pose proof (C106_encode te be sa_img sa_rd k room mem HA HL HS) as G. fold v in G.
  pose proof (C91_ie_octets k room v (val_typed te be sa_rd (abi_laid _ _ _ HA) (proj1 (proj2 HA)) room mem k HL HT) HR) as P. destruct (writable v).
  - rewrite P in G. destruct (N.leb_spec (lenN (ie_written k v)) room); [exact G|lia].
  - destruct P as (b & P & Q). rewrite P in G. destruct (N.leb_spec (lenN b) room); [|lia]. exists b. exact G.
Qed.
(* A string without a NUL in its array: the encoder reads behind the array. *)
Theorem C106_unended te be sa_img sa_rd k room mem : ie_abi te sa_img sa_rd -> lenN mem = sz te (ktype k) -> 1 <= room -> ~ strings_end te be k mem ->
  exists out, c_enc te be sa_rd mem room k = (out, UB OobRead).
Proof. intros HA. exact (unended te be sa_rd (abi_laid _ _ _ HA) (proj1 (proj2 HA)) room mem k). Qed.
Theorem C106_unended_refuted : exists mem, lenN mem = sz p_te NET_INST /\ bytes_ok mem /\ c_enc p_te false (sa_val false) mem 1000 KNetInst = ([], UB OobRead).
Proof. exists (repeat 97 254). split; [vm_compute; reflexivity|]. split; [apply Forall_forall; intros x Hx; apply repeat_spec in Hx; subst x; reflexivity|]. vm_compute. reflexivity. Qed.
Print Assumptions C106_encode.
Print Assumptions C106_octets.
Print Assumptions C106_unended.
Print Assumptions C106_unended_refuted.

Lemma cstr_short s : lenN (cstr s) <= lenN s.
Proof. induction s as [|x s IH]; [reflexivity|]. cbn [cstr]. destruct (x =? 0); rewrite ?lenN_cons; [change (lenN []) with 0|]; lia. Qed.
Lemma name_short m len arr s : dec_name m len arr = Ok (Some s) -> lenN s < arr.
Proof.
  unfold dec_name. destruct (apn_to_str _ m len) as [[t|]|e|u]; cbn [bind]; try discriminate. destruct (N.ltb_spec arr (lenN t + 1)); [discriminate|]. intros X. injection X as <-. pose proof (cstr_short t). lia.
Qed.
Lemma decoded_ends te be sa_img sa_rd k m len v new : ie_abi te sa_img sa_rd -> lenN new = sz te (ktype k) -> dec_of k m len = Ok v -> c_val te be sa_rd k new = v -> strings_end te be k new.
Proof.
  intros HA L D V. pose proof (abi_laid _ _ _ HA) as HL. destruct HA as (_ & HB & _). destruct HB as (_ & B_char & _).
  assert (LY : forall n h, nth_error custom_h n = Some h -> laid_out te h) by (intros n h X; apply nth_error_In in X; rewrite Forall_forall in HL; exact (HL h X)).
  destruct k; try exact I; cbn [strings_end c_val dec_of ktype] in *.
  - intros T2. rewrite T2 in V. change (2 =? 0) with false in V. change (2 =? 1) with false in V. change (2 =? 2) with true in V. cbv iota in V. subst v.
    pose proof (LY 1%nat _ eq_refl) as U. pose proof (LY 2%nat _ eq_refl) as Y. unfold laid_out, chain, member_sz, mb, mba in U, Y. cbn [mb_name mb_arr mb_type] in U, Y.
    apply Forall_cons_iff in U. destruct U as [_ U]. apply Forall_cons_iff in U. destruct U as [[U3 U4] _]. cbn [mb_name mb_arr mb_type] in U3, U4. rewrite B_char in U4.
    apply (short_ends sa_rd new). rewrite (get_len _ 254) by lia. unfold dec_node_id in D. destruct (len <? 1); [discriminate|]. destruct (rd_be 1 m) as [t|e|u]; try discriminate. cbn [bind] in D.
    destruct (t =? 0). { destruct (negb _); [discriminate|]. destruct (at_ofs m 1 (len - 1)); discriminate. }
    destruct (t =? 1). { destruct (negb _); [discriminate|]. destruct (at_ofs m 1 (len - 1)); discriminate. }
    destruct (t =? 2); [|discriminate]. destruct (_ || _); [discriminate|]. destruct (dec_name (dropN 1 m) (len - 1) 254) as [[s|]|e|u] eqn:EN; try discriminate. cbn [bind] in D. apply name_short in EN. injection D as D. rewrite <- D. exact EN.
  - subst v. pose proof (LY 12%nat _ eq_refl) as Y. unfold laid_out, chain, member_sz, mb, mba in Y. cbn [mb_name mb_arr mb_type] in Y. rewrite B_char in Y.
    apply (short_ends sa_rd new). rewrite (get_len _ 254) by lia. unfold dec_network_inst in D. destruct (_ || _); [discriminate|]. destruct (dec_name m len 254) as [[s|]|e|u] eqn:EN; try discriminate. cbn [bind] in D. apply name_short in EN. injection D as D. rewrite <- D. exact EN.
  - subst v. pose proof (LY 13%nat _ eq_refl) as Y. unfold laid_out, chain, member_sz, mb, mba in Y. cbn [mb_name mb_arr mb_type] in Y. rewrite B_char in Y.
    apply (short_ends sa_rd new). rewrite (get_len _ 256) by lia. unfold dec_act_predef, osmo_strlcpy in D. destruct (c_strlen m) as [n|e|u]; try discriminate. cbn [bind] in D. injection D as D. rewrite <- D.
    unfold lenN, takeN. rewrite firstn_length. lia.
Qed.
Lemma enc_present k room v : enc_of k room (present_only v) = enc_of k room v.
Proof.
  assert (P : forall pre a, enc_addrs pre (present_addrs a) = enc_addrs pre a) by (intros pre a; unfold enc_addrs, present_addrs; cbn [ia_v4p ia_v4 ia_v6p ia_v6]; destruct (ia_v4p a), (ia_v6p a); reflexivity).
  destruct k, v as [| | |x| | | | |x]; try reflexivity; cbn [present_only enc_of enc_f_seid enc_ue_ip fs_seid fs_addr ue_chv6 ue_chv4 ue_dest ue_addr ue_delegp ue_deleg ue_plenp ue_plen]; rewrite P; [reflexivity|].
  destruct (ue_delegp x), (ue_plenp x); reflexivity.
Qed.
(* Forwarding: the encoder, on a struct that the decoder filled (used before or not), puts what [enc_of] says for the IE that was decoded. *)
Theorem C106_forward te be sa_img sa_rd k room m len old v : ie_abi te sa_img sa_rd -> bytes_ok m -> lenN old = sz te (ktype k) -> (k = KOhr -> Forall (fun b => b = 0) old) ->
  dec_of k m len = Ok v -> exists new, c_dec te be sa_img k m len old = (new, Ok tt) /\
    let '(bs, e) := enc_of k room v in
    if lenN bs <=? room then c_enc te be sa_rd new room k = (bs, rc_of e) else exists out, c_enc te be sa_rd new room k = (out, UB MsgbAbort).
Proof.
  intros HA HM HL HO D. assert (G : exists new, c_dec te be sa_img k m len old = (new, Ok tt) /\ lenN new = sz te (ktype k) /\ strings_end te be k new /\ present_only (c_val te be sa_rd k new) = present_only v).
  { assert (K : k = KOhr \/ k <> KOhr) by (destruct k; (left; reflexivity) || (right; discriminate)). destruct K as [K|K].
    - pose proof (C104_decode te be sa_img sa_rd k m len old HA HM HL (HO K)) as G. rewrite D in G. destruct G as (new & E & L & V). exists new. split; [exact E|]. split; [exact L|]. split; [subst k; exact I|]. rewrite V. reflexivity.
    - pose proof (any_old te be sa_img sa_rd k m len old HA HM HL) as G. rewrite D in G. destruct G as (new & E & L & V & P). exists new. split; [exact E|]. split; [exact L|]. split; [|exact (P K)].
      destruct (resets k) eqn:R; [eapply decoded_ends; eauto|]. destruct k; try discriminate R; exact I. }
  destruct G as (new & E & L & S & P). exists new. split; [exact E|]. pose proof (C106_encode te be sa_img sa_rd k room new HA L S) as G. rewrite <- (enc_present k room v), <- P, enc_present. exact G.
Qed.
Print Assumptions C106_forward.
(* on both ABIs of C104: addresses have their size; a Node ID "a.bc" *)
Lemma sa_val_typed te be : sz te SOCKADDR = 128 -> sockaddr_typed te (sa_val be).
Proof.
  intros E l L. rewrite E in L. unfold sa_val. destruct (_ =? 2); [cbn [typed_sa]; apply get_len; lia|]. destruct (_ =? 10); [cbn [typed_sa]; apply get_len; lia|exact I].
Qed.
Example C106_example : sockaddr_typed p_te (sa_val false) /\ sockaddr_typed q_te (sa_val true)
  /\ let mem := n2y true 1 2 ++ [97; 46; 98; 99; 0] ++ repeat 255 249 in
     lenN mem = sz q_te NODE_ID /\ strings_end q_te true KNodeId mem /\ c_enc q_te true (sa_val true) mem 1000 KNodeId = ([2; 1; 97; 2; 98; 99], Ok tt)
     /\ c_enc q_te true (sa_val true) mem 5 KNodeId = ([2], Err EINVAL) /\ c_enc q_te true (sa_val true) mem 0 KNodeId = ([], UB MsgbAbort).
Proof.
  split; [apply sa_val_typed; vm_compute; reflexivity|]. split; [apply sa_val_typed; vm_compute; reflexivity|]. cbv zeta. split; [vm_compute; reflexivity|]. split; [|vm_compute; auto].
  intros _. vm_compute. tauto.
Qed.
Example C106_example_forward :
  let new := fst (c_dec p_te false (sa_mem false) KUeIp [2; 10; 0; 0; 1] 5 (repeat 255 (N.to_nat (sz p_te UE_IP)))) in
  c_enc p_te false (sa_val false) new 100 KUeIp = ([2; 10; 0; 0; 1], Ok tt) /\ c_enc p_te false (sa_val false) new 4 KUeIp = ([2], UB MsgbAbort).
Proof. vm_compute. split; reflexivity. Qed.

(* ---------------------------------------------------------------- C107 *)
(* Printing: whatever the struct contains, unended strings included, the text of its value appears in the buffer. *)
Theorem C107_print te be sa_img sa_rd T k mem : ie_abi te sa_img sa_rd -> lenN mem = sz te (ktype k) ->
  renders (c_to_str te be sa_rd mem T k) (ie_text T k (c_val te be sa_rd k mem)).
Proof.
  intros HA HL. pose proof (all_print te be sa_rd (abi_laid _ _ _ HA) (proj1 (proj2 HA)) T mem k HL) as G.
  intros m n Hn. rewrite G. exact (C57_ie_text T k _ (val_printable te be sa_rd (abi_laid _ _ _ HA) (proj1 (proj2 HA)) 0 mem k HL) m n Hn).
Qed.
(* In any buffer or none, printing the struct is printing its value: all of C56 to C58 holds of structs in memory. *)
Theorem C107_value te be sa_img sa_rd T k mem b n : ie_abi te sa_img sa_rd -> lenN mem = sz te (ktype k) ->
  c_to_str te be sa_rd mem T k b n = ie_to_str T k (c_val te be sa_rd k mem) b n.
Proof. intros HA HL. exact (all_print te be sa_rd (abi_laid _ _ _ HA) (proj1 (proj2 HA)) T mem k HL b n). Qed.
(* After decoding: the text of the IE that was received. *)
Theorem C107_decoded te be sa_img sa_rd T k m len old v : ie_abi te sa_img sa_rd -> bytes_ok m -> lenN old = sz te (ktype k) -> Forall (fun b => b = 0) old ->
  dec_of k m len = Ok v -> exists new, c_dec te be sa_img k m len old = (new, Ok tt) /\ renders (c_to_str te be sa_rd new T k) (ie_text T k v).
Proof.
  intros HA HM HL HZ D. pose proof (C104_decode te be sa_img sa_rd k m len old HA HM HL HZ) as G. rewrite D in G. destruct G as (new & E & L & V). exists new. split; [exact E|].
  rewrite <- V. exact (C107_print te be sa_img sa_rd T k new HA L).
Qed.
Print Assumptions C107_print.
Print Assumptions C107_value.
Print Assumptions C107_decoded.
(* "fqdn:" and a name that fills its array, no NUL; a Node ID type that does not exist *)
Example C107_example :
  let T := mkTexts (fun _ => []) (fun _ => []) (fun _ => []) (fun _ => []) (fun _ => []) (fun _ => []) (fun _ => []) (fun _ => []) (fun s => s) in
  ie_text T KNodeId (c_val q_te true (sa_val true) KNodeId ([2] ++ repeat 97 254)) = str "fqdn:" ++ repeat 97 254
  /\ c_to_str q_te true (sa_val true) ([2] ++ repeat 97 254) T KNodeId (Some (repeat 7 10)) 8 = Ok (Some (str "fqdn:aa" ++ [0; 7; 7]), 259%Z)
  /\ c_to_str q_te true (sa_val true) ([9] ++ repeat 97 254) T KNodeId None 0 = Ok (None, 22%Z).
Proof. vm_compute. split; [reflexivity|]. split; reflexivity. Qed.
