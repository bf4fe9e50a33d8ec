(* PropertiesIes.v -- the property theorems C18 .. C20 and C46 .. C49 (PFCP IE codecs and helpers). Proofs are in
   IesProofs.v and HelperProofs.v; the vocabulary of the statements is in IesModel.v (code) and IesSpec.v (wire format,
   valid values). *)
From Verif Require Import Base BaseProofs GtlvModel DecEncModel DecEncSpec IesModel IesSpec IesProofs HelperProofs.

(* ---------------------------------------------------------------- C18 *)
(* Every valid value [v] of every IE type [k] has a wire form (TS 29.244); the encoder writes it if there is room, and
   the decoder maps it back to [v]. "Activate Predefined Rules" needs a NUL somewhere in the memory behind the IE
   (see C19); [rest] is the memory behind. *)
Theorem C18_ie_roundtrip k v : valid_ie k v ->
  exists bs, wire_ie k v bs
    /\ (forall room, lenN bs <= room -> enc_of k room v = (bs, None))
    /\ (forall rest, (k = KActPredef -> In 0 rest) -> dec_of k (bs ++ rest) (lenN bs) = Ok v).
Proof.
  exact (fun H => match wire_exists k v H with ex_intro _ bs W =>
    ex_intro _ bs (conj W (conj (fun room R => ie_enc k v bs room H W R) (fun rest T => ie_dec k v bs rest H W T))) end).
Qed.
Print Assumptions C18_ie_roundtrip.
(* whenever encoding a valid value succeeds, what was written is a wire form of it that decodes to the same value *)
Theorem C18_encode_decode k v room bs rest : valid_ie k v -> enc_of k room v = (bs, None) -> (k = KActPredef -> In 0 rest) ->
  wire_ie k v bs /\ dec_of k (bs ++ rest) (lenN bs) = Ok v.
Proof. exact (ie_encode_decode k v room bs rest). Qed.
Print Assumptions C18_encode_decode.
(* an Outer Header Creation whose members contradict its description bits is refused *)
Theorem C18_ohc_consistent room x bs : lenN (oh_desc x) = 2 -> enc_of KOhc room (IvOhc x) = (bs, None) -> ohc_consistent x.
Proof. exact (enc_ohc_consistent room x bs). Qed.
Print Assumptions C18_ohc_consistent.
Definition C18_fseid : iev := IvFseid (mkFseid 16 (mkAddrs true (Sa4 [1; 2; 3; 4] 0) false SaUnspec)).
Definition C18_name : iev := IvNode (NodeFqdn [97; 46; 98]).
Example C18_example : valid_ie KFSeid C18_fseid /\ valid_ie KNodeId C18_name
  /\ enc_of KFSeid 100 C18_fseid = ([2; 0; 0; 0; 0; 0; 0; 0; 16; 1; 2; 3; 4], None)
  /\ enc_of KNodeId 100 C18_name = ([2; 1; 97; 1; 98], None).
Proof.
  split; [|split; [|split; reflexivity]].
  - split; [reflexivity|]. split; [|reflexivity]. eexists. split; [reflexivity|]. split; [reflexivity|repeat constructor].
  - exists [[97]; [98]]. repeat split; try discriminate; repeat constructor; try discriminate; lia.
Qed.

(* ---------------------------------------------------------------- C19 *)
(* All IE decoders but one: defined for every byte string [v], and the result does not depend on the memory behind. *)
Theorem C19_decoders_safe k v rest : k <> KActPredef ->
  (forall u, dec_of k (v ++ rest) (lenN v) <> UB u) /\ dec_of k (v ++ rest) (lenN v) = dec_of k v (lenN v).
Proof. exact (dec_safe k v rest). Qed.
Print Assumptions C19_decoders_safe.
(* "Activate Predefined Rules": safe only if there is a NUL byte in the memory behind the IE ... *)
Theorem C19_act_predef_safe_partial v rest : In 0 rest ->
  (forall u, dec_of KActPredef (v ++ rest) (lenN v) <> UB u)
  /\ dec_of KActPredef (v ++ rest) (lenN v) = dec_of KActPredef (v ++ [0]) (lenN v).
Proof. exact (act_predef_safe v rest). Qed.
Print Assumptions C19_act_predef_safe_partial.
(* ... otherwise it reads beyond: pfcp_ies_custom.c:913 takes strlen() of the IE value *)
Theorem C19_decoders_safe_refuted : exists v, dec_of KActPredef v (lenN v) = UB OobRead.
Proof. exact (ex_intro _ [65; 66] eq_refl). Qed.
Print Assumptions C19_decoders_safe_refuted.
Example C19_example : dec_of KOhc [1] 1 = Err EINVAL /\ dec_of KFTeid [8] 1 = Err EINVAL /\ In 0 [7; 0].
Proof. repeat split; try reflexivity. cbn. auto. Qed.

(* ---------------------------------------------------------------- C20 *)
(* A decoded value is valid; the exception are names, which are C strings that fit the member array. *)
Theorem C20_decoded_in_range k v rest x : bytes_ok v -> (k = KActPredef -> In 0 rest) -> dec_of k (v ++ rest) (lenN v) = Ok x ->
  valid_ie k x
  \/ ((k = KNodeId /\ exists s, x = IvNode (NodeFqdn s) /\ Forall (fun b => 0 < b < 256) s /\ lenN s <= 253)
      \/ (k = KNetInst /\ exists s, x = IvStr s /\ Forall (fun b => 0 < b < 256) s /\ lenN s <= 253)).
Proof. exact (decoded_in_range k v rest x). Qed.
Print Assumptions C20_decoded_in_range.
(* Decode, encode, decode gives the same value, for all IEs except names *)
Theorem C20_decode_encode_stable k v rest x : bytes_ok v -> k <> KNodeId -> k <> KNetInst -> (k = KActPredef -> In 0 rest) ->
  dec_of k (v ++ rest) (lenN v) = Ok x ->
  exists bs, (forall room, lenN bs <= room -> enc_of k room x = (bs, None))
    /\ forall rest', (k = KActPredef -> In 0 rest') -> dec_of k (bs ++ rest') (lenN bs) = Ok x.
Proof. exact (decode_encode_stable k v rest x). Qed.
Print Assumptions C20_decode_encode_stable.
(* names: if no label on the wire contains NUL or '.', the name is valid (and hence stable by C18) *)
Theorem C20_names_partial v rest s : dec_of KNetInst (v ++ rest) (lenN v) = Ok (IvStr s) ->
  exists labels tail, v = wire_labels labels ++ tail /\ s = cstr (join labels)
    /\ (Forall label_ok labels -> valid_ie KNetInst (IvStr s)).
Proof. exact (net_inst_valid v rest s). Qed.
Print Assumptions C20_names_partial.
Theorem C20_fqdn_partial v rest s : dec_of KNodeId (2 :: v ++ rest) (1 + lenN v) = Ok (IvNode (NodeFqdn s)) ->
  exists labels tail, v = wire_labels labels ++ tail /\ s = cstr (join labels)
    /\ (Forall label_ok labels -> valid_ie KNodeId (IvNode (NodeFqdn s))).
Proof. exact (fqdn_valid v rest s). Qed.
Print Assumptions C20_fqdn_partial.
(* a '.' inside of a label: "." is decoded, which is encoded as two empty labels, which decode to "" *)
Theorem C20_names_stable_refuted : exists v s bs s',
  dec_of KNetInst v (lenN v) = Ok (IvStr s) /\ enc_of KNetInst 2048 (IvStr s) = (bs, None)
  /\ dec_of KNetInst bs (lenN bs) = Ok (IvStr s') /\ s' <> s.
Proof.
  exact (ex_intro _ [1; 46] (ex_intro _ [46] (ex_intro _ [0; 0] (ex_intro _ []
    (conj eq_refl (conj eq_refl (conj eq_refl (fun E : [] = [46] => match E in _ = l return match l with [] => True | _ => False end with eq_refl => I end)))))))).
Qed.
Print Assumptions C20_names_stable_refuted.
(* feature and action bits keep their position on the wire; those beyond the end of a short IE are 0 *)
Theorem C20_feature_bits k v rest bits pos : dec_of k (v ++ rest) (lenN v) = Ok (IvBits bits) -> pos < 8 * feature_octets k ->
  lenN bits = feature_octets k /\ bits_get bits pos = Ok (N.testbit (nth (N.to_nat (pos / 8)) v 0) (pos mod 8)).
Proof. exact (feature_bits k v rest bits pos). Qed.
Print Assumptions C20_feature_bits.
Example C20_example : dec_of KSrcIface [255] 1 = Ok (IvNum 15) /\ dec_of KApplyAction [2] 1 = Ok (IvBits [2; 0])
  /\ dec_of KNetInst [1; 97; 2; 98; 99] 5 = Ok (IvStr [97; 46; 98; 99]).
Proof. repeat split; vm_compute; reflexivity. Qed.

(* ---------------------------------------------------------------- C46 *)
(* with a common address family the comparison is antisymmetric ... *)
Theorem C46_f_seid_cmp_antisymmetric_partial a b :
  (ia_v4p (fs_addr a) && ia_v4p (fs_addr b)) || (ia_v6p (fs_addr a) && ia_v6p (fs_addr b)) = true ->
  f_seid_cmp b a = (- f_seid_cmp a b)%Z.
Proof. exact (f_seid_cmp_anti a b). Qed.
Print Assumptions C46_f_seid_cmp_antisymmetric_partial.
(* ... and 0 exactly if the SEIDs are equal and the IPv4 addresses are (or the IPv6 addresses, if not both have IPv4) *)
Theorem C46_f_seid_cmp_zero_partial a b : valid_addrs (fs_addr a) -> valid_addrs (fs_addr b) ->
  (ia_v4p (fs_addr a) && ia_v4p (fs_addr b)) || (ia_v6p (fs_addr a) && ia_v6p (fs_addr b)) = true ->
  (f_seid_cmp a b = 0%Z <-> fs_seid a = fs_seid b /\
    if ia_v4p (fs_addr a) && ia_v4p (fs_addr b) then ia_v4 (fs_addr a) = ia_v4 (fs_addr b) else ia_v6 (fs_addr a) = ia_v6 (fs_addr b)).
Proof. exact (f_seid_cmp_0 a b). Qed.
Print Assumptions C46_f_seid_cmp_zero_partial.
(* ... and it sorts by address, then by SEID *)
Theorem C46_f_seid_cmp_order_partial a b : valid_addrs (fs_addr a) -> valid_addrs (fs_addr b) ->
  match shared a b with
  | Some (x, y) => (f_seid_cmp a b < 0)%Z <-> octets_lt x y \/ (x = y /\ fs_seid a < fs_seid b)
  | None => True
  end.
Proof. exact (f_seid_cmp_lt a b). Qed.
Print Assumptions C46_f_seid_cmp_order_partial.
Theorem C46_f_seid_cmp_transitive_partial a b d : valid_addrs (fs_addr a) -> valid_addrs (fs_addr b) -> valid_addrs (fs_addr d) ->
  (ia_v4p (fs_addr a) && ia_v4p (fs_addr b) = true /\ ia_v4p (fs_addr d) = true)
  \/ (ia_v6p (fs_addr a) && ia_v6p (fs_addr b) = true /\ ia_v6p (fs_addr d) = true
      /\ ia_v4p (fs_addr a) = false /\ ia_v4p (fs_addr b) = false /\ ia_v4p (fs_addr d) = false) ->
  (f_seid_cmp a b < 0 -> f_seid_cmp b d < 0 -> f_seid_cmp a d < 0)%Z.
Proof. exact (f_seid_cmp_lt_trans a b d). Qed.
Print Assumptions C46_f_seid_cmp_transitive_partial.
(* pointers: NULL is the smallest, an object is equal to itself *)
Theorem C46_f_seid_cmp_pointers p x b :
  f_seid_cmp_ptr None None = 0%Z /\ f_seid_cmp_ptr None (Some (p, x)) = (-1)%Z /\ f_seid_cmp_ptr (Some (p, x)) None = 1%Z
  /\ f_seid_cmp_ptr (Some (p, x)) (Some (p, x)) = 0%Z
  /\ (forall q, q <> p -> f_seid_cmp_ptr (Some (p, x)) (Some (q, b)) = f_seid_cmp x b).
Proof. exact (f_seid_cmp_ptr_spec p x b). Qed.
Print Assumptions C46_f_seid_cmp_pointers.
(* equal F-SEIDs without an address compare as 1 *)
Theorem C46_f_seid_cmp_equal_refuted : exists a b, a = b /\ valid_addrs (fs_addr a) /\ f_seid_cmp a b = 1%Z /\ f_seid_cmp b a = 1%Z.
Proof. exact (ex_intro _ (mkFseid 5 no_addrs) (ex_intro _ (mkFseid 5 no_addrs) (conj eq_refl (conj (conj eq_refl eq_refl) (conj eq_refl eq_refl))))). Qed.
Print Assumptions C46_f_seid_cmp_equal_refuted.
(* "It suffices if one of the IP addresses match": not if both have IPv4 and only the IPv6 address matches *)
Theorem C46_f_seid_cmp_one_ip_refuted : exists a b, valid_addrs (fs_addr a) /\ valid_addrs (fs_addr b) /\ fs_seid a = fs_seid b
  /\ ia_v4p (fs_addr a) && ia_v4p (fs_addr b) = true /\ ia_v6p (fs_addr a) && ia_v6p (fs_addr b) = true
  /\ ia_v6 (fs_addr a) = ia_v6 (fs_addr b) /\ f_seid_cmp a b <> 0%Z.
Proof. exact f_seid_cmp_one_ip. Qed.
Print Assumptions C46_f_seid_cmp_one_ip_refuted.
Example C46_example :
  let a := mkFseid 5 (mkAddrs true (Sa4 [1; 2; 3; 4] 0) false SaUnspec) in
  let b := mkFseid 6 (mkAddrs true (Sa4 [1; 2; 3; 4] 0) false SaUnspec) in
  valid_addrs (fs_addr a) /\ f_seid_cmp a a = 0%Z /\ f_seid_cmp a b = (-1)%Z.
Proof. cbn zeta. split; [|split; reflexivity]. split; [|reflexivity]. eexists. split; [reflexivity|]. split; [reflexivity|repeat constructor]. Qed.

(* ---------------------------------------------------------------- C47 *)
Theorem C47_bits_set_get bits pos v : pos < 8 * lenN bits ->
  exists bits', bits_set bits pos v = Ok bits' /\ length bits' = length bits /\ bits_get bits' pos = Ok v
    /\ forall pos', pos' <> pos -> bits_get bits' pos' = bits_get bits pos'.
Proof. exact (bits_set_get bits pos v). Qed.
Print Assumptions C47_bits_set_get.
(* bit [pos] is bit [pos mod 8] (0 = least significant) of octet [pos / 8] *)
Theorem C47_bits_position bits pos : pos < 8 * lenN bits ->
  bits_get bits pos = Ok (N.testbit (nth (N.to_nat (pos / 8)) bits 0) (pos mod 8)).
Proof. exact (bits_get_bit bits pos). Qed.
Print Assumptions C47_bits_position.
Theorem C47_bits_set_bytes bits pos v bits' : bytes_ok bits -> bits_set bits pos v = Ok bits' -> bytes_ok bits'.
Proof. exact (bits_set_bytes bits pos v bits'). Qed.
Print Assumptions C47_bits_set_bytes.
Example C47_example : bits_set [0; 255] 9 false = Ok [0; 253] /\ bits_set [0; 255] 0 true = Ok [1; 255] /\ bits_get [0; 253] 9 = Ok false.
Proof. repeat split; vm_compute; reflexivity. Qed.

(* ---------------------------------------------------------------- C48 *)
Theorem C48_ip_addrs_set_get dst addr :
  match addr with
  | Sa4 a p => exists d, ip_addrs_set dst addr = (d, Ok tt) /\ ip_addrs_get d = (Sa4 a 0, snd (ip_addrs_get dst))
      /\ ia_v4p d = true /\ ia_v6p d = ia_v6p dst /\ ia_v6 d = ia_v6 dst
  | Sa6 a p => exists d, ip_addrs_set dst addr = (d, Ok tt) /\ ip_addrs_get d = (fst (ip_addrs_get dst), Sa6 a 0)
      /\ ia_v6p d = true /\ ia_v4p d = ia_v4p dst /\ ia_v4 d = ia_v4 dst
  | SaUnspec => ip_addrs_set dst addr = (dst, Err ENOTSUP)
  end.
Proof. exact (ip_addrs_set_get dst addr). Qed.
Print Assumptions C48_ip_addrs_set_get.
Theorem C48_f_seid_set seid addr :
  fs_seid (f_seid_set seid addr) = seid /\
  ip_addrs_get (fs_addr (f_seid_set seid addr)) =
    match addr with Sa4 a _ => (Sa4 a 0, SaUnspec) | Sa6 a _ => (SaUnspec, Sa6 a 0) | SaUnspec => (SaUnspec, SaUnspec) end.
Proof. exact (f_seid_set_spec seid addr). Qed.
Print Assumptions C48_f_seid_set.
(* the string variant reports the same IPv4 address, and without an IPv4 address the same IPv6 address *)
Theorem C48_get_str src : fst (ip_addrs_get_str src) = Some (fst (ip_addrs_get src))
  /\ (fst (ip_addrs_get src) = SaUnspec -> valid_addrs src -> snd (ip_addrs_get_str src) = Some (snd (ip_addrs_get src))).
Proof. exact (conj (proj1 (get_str_spec src)) (get_str_v6 src)). Qed.
Print Assumptions C48_get_str.
(* the string variant does not report the IPv6 address if there is an IPv4 address *)
Theorem C48_get_str_v6_refuted : exists src a, ip_addrs_get src = (Sa4 [10; 0; 0; 1] 0, Sa6 a 0) /\ valid_addrs src
  /\ snd (ip_addrs_get_str src) = None.
Proof. exact get_str_v6_missing. Qed.
Print Assumptions C48_get_str_v6_refuted.
Example C48_example : ip_addrs_set no_addrs (Sa4 [1; 2; 3; 4] 8805) = (mkAddrs true (Sa4 [1; 2; 3; 4] 0) false SaUnspec, Ok tt).
Proof. reflexivity. Qed.

(* ---------------------------------------------------------------- C49 *)
(* round trip if the output argument was initialised to the right family *)
Theorem C49_node_id_roundtrip_partial os os0 : sa_family os = sa_family os0 -> os <> SaUnspec ->
  exists n, node_id_from_sa os = Ok n /\ node_id_to_sa n os0 = Ok os.
Proof. exact (node_id_rt os os0). Qed.
Print Assumptions C49_node_id_roundtrip_partial.
(* what is not an IPv4 or IPv6 address is refused *)
Theorem C49_not_an_address : node_id_from_sa SaUnspec = Err ENOTSUP
  /\ (forall s os, node_id_to_sa (NodeFqdn s) os = Err ENOTSUP) /\ (forall t os, node_id_to_sa (NodeOther t) os = Err ENOTSUP).
Proof. exact node_id_errors. Qed.
Print Assumptions C49_not_an_address.
(* it fails for an empty output argument, pfcp_msg.c:124,129 check the family of the output argument *)
Theorem C49_node_id_roundtrip_refuted : exists os n, node_id_from_sa os = Ok n /\ node_id_to_sa n SaUnspec = Err EINVAL.
Proof. exact (ex_intro _ (Sa4 [1; 2; 3; 4] 0) (node_id_rt_fails [1; 2; 3; 4] 0)). Qed.
Print Assumptions C49_node_id_roundtrip_refuted.
Example C49_example : sa_family (Sa4 [1; 2; 3; 4] 8805) = sa_family (Sa4 [0; 0; 0; 0] 0).
Proof. reflexivity. Qed.
