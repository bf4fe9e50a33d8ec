(* PropertiesMsgMem.v -- C111: whole PFCP messages in the memory of two hosts: union of IEs, header, msgb. Proofs: MsgMemProofs.v; code: MsgMemModel.v. *)
From Verif Require Import Base GtlvModel DecEncModel DecEncSpec IesModel IesSpec TablesModel MsgModel MsgSpec StrModel MemModel MemSpec MemTest GenModel GenPfcp PfcpMem PfcpMemFinal PropertiesStr PropertiesGen
  IeMemModel IeMemSpec IeEncModel IeMsgModel IeMsgSpec HdrMemModel HdrMemSpec HdrMemProofs PropertiesIeMsg PropertiesMsg MsgMemModel MsgMemSpec MsgMemProofs.

(* ---------------------------------------------------------------- C111 *)
(* A message in the union of one host, on any ABI and of either byte order, encoded into a msgb with any bytes in its memory, and behind earlier messages or not, is
   decoded by another host, on any other ABI and of either byte order, to the same header and to a union that holds the same message: for all message types
   with a table, all valid headers and contents, if there is room. [bs]: a wire form of the IEs. [rest]: memory behind the received message *)
Theorem C111_exchange te1 r1 be1 img1 rd1 T1 te2 r2 be2 img2 rd2 T2 h tab slots : abi_and_headers te1 r1 img1 rd1 -> abi_and_headers te2 r2 img2 rd2 ->
  valid_hdr h -> get_msg_coding (hd_type h) = Some tab -> valid_struct tab slots ->
  exists bs, wire_struct tab slots bs
    /\ (hdr_len h + lenN bs <= 65539 -> forall m b dm1,
        holds m b -> bytes_ok (cm_mem b) -> cm_tail b + hdr_len h + lenN bs <= lenN (cm_mem b) ->
        union_holds r1 (cc_lk te1 be1 img1 rd1 T1) (c_ld te1 be1 rd1) be1 (hd_type h) dm1 slots ->
        exists b' q, mm_msg_encode te1 r1 be1 img1 rd1 T1 b h dm1 = COk b' /\ takeN (cm_tail b' - cm_tail b) (dropN (cm_tail b) (cm_mem b')) = q
          /\ lenN q = hdr_len h + lenN bs
          /\ forall rest dm2, In 0 rest -> bytes_ok (q ++ rest) -> lenN dm2 = gen_union_size pfcp_cfg r2 -> Forall (fun x => x = 0) dm2 ->
               exists dm2' d, mm_msg_decode te2 r2 be2 img2 rd2 T2 (q ++ rest) (lenN q) dm2 = (dm2', Ok d) /\ dh_h d = h /\ dh_len d = lenN q
                 /\ union_holds r2 (cc_lk te2 be2 img2 rd2 T2) (c_ld te2 be2 rd2) be2 (hd_type h) dm2' slots).
Proof. exact (hosts_exchange te1 r1 be1 img1 rd1 T1 te2 r2 be2 img2 rd2 T2 h tab slots). Qed.
Print Assumptions C111_exchange.
(* Any union that holds a message with ended strings, valid or not: osmo_pfcp_msg_encode() succeeds, fails or aborts as the octet model of C22 .. C28 says *)
Theorem C111_encode te r be img rd T m b h dm slots : abi_and_headers te r img rd -> union_ends te be rd r (cc_lk te be img rd T) (hd_type h) dm slots ->
  holds m b -> bytes_ok (cm_mem b) ->
  let size := hdr_size (is_some (hd_seid h)) in
  let old := nth (N.to_nat (cm_tail b + size - 1)) (cm_mem b) 0 in
  let fix_octet := with_octet (cm_tail b + size - 1) (last_octet h old) in
  match msg_encode m h slots with
  | MOk m' => exists b', mm_msg_encode te r be img rd T b h dm = COk b' /\ holds (fix_octet m') b'
  | MErr m' e => exists b', mm_msg_encode te r be img rd T b h dm = CErr b' e /\ holds (fix_octet m') b'
  | MUB u => mm_msg_encode te r be img rd T b h dm = CUB u
  end.
Proof.
  intros HH HU HM HB. rewrite (mm_encode_eq te r be img rd T HH b h dm slots HU). pose proof (encode_in_memory be m b h slots HM HB) as E. cbv zeta in E |- *.
  destruct (msg_encode m h slots); [|  |exact E]; destruct E as (b' & E1 & E2 & _); exists b'; auto.
Qed.
Print Assumptions C111_encode.
(* A received datagram of complete messages, and, at its end, perhaps one with a bad header: in memory, on any ABI, the messages given to the user are those of the octet model
   (C26), with a union that holds the decoded IEs; the same ones are dropped, for the same reasons *)
Theorem C111_receive te r be img rd T ps q : abi_and_headers te r img rd -> Forall framed ps -> q = [] \/ bad_header q ->
  bytes_ok (concat ps ++ q) -> lenN (concat ps ++ q) < alloc_size ->
  Forall2 (same_out te r be img rd T) (rx_datagram (concat ps ++ q)) (mm_rx_datagram te r be img rd T (concat ps ++ q)).
Proof. intros HH. exact (mm_datagram te r be img rd T HH ps q). Qed.
Print Assumptions C111_receive.
(* The complete messages at the start of any datagram, whatever follows them (also a message that announces less than its header, where C111_receive says nothing) *)
Theorem C111_receive_prefix te r be img rd T ps q : abi_and_headers te r img rd -> Forall framed ps -> bytes_ok (concat ps ++ q) -> lenN (concat ps ++ q) < alloc_size ->
  exists os tail, mm_rx_datagram te r be img rd T (concat ps ++ q) = (os ++ tail)%list /\ Forall2 (same_out te r be img rd T) (map outcome ps) os.
Proof. intros HH. exact (mm_datagram_prefix te r be img rd T HH ps q). Qed.
Print Assumptions C111_receive_prefix.
(* the usual 64-bit ABI, big and little endian: the Session Modification Response of C24 is held by a union, is encoded into dirty memory on one host, and received by the other *)
Definition C111_octets : list N :=
  [33; 53; 0; 50; 0; 0; 0; 0; 0; 0; 0; 7; 0; 0; 9; 153; 0; 19; 0; 1; 1;
   0; 8; 0; 19; 0; 56; 0; 2; 0; 2; 0; 21; 0; 9; 1; 0; 0; 0; 3; 127; 0; 0; 1; 0; 8; 0; 6; 0; 56; 0; 2; 0; 4].
Definition C111_dirty : cmsgb := mkCm (repeat 153 64) 0 None None.
Lemma C111_held be : exists dm, union_holds p_r (cc_lk p_te be (sa_mem be) (sa_val be) C57_T) (c_ld p_te be (sa_val be)) be (hd_type C24_h) dm C24_ies
  /\ union_ends p_te be (sa_val be) p_r (cc_lk p_te be (sa_mem be) (sa_val be) C57_T) (hd_type C24_h) dm C24_ies.
Proof.
  destruct zero_union as (dm & L & Z). assert (B : bytes_ok (dropN 16 C111_octets ++ [0])) by (vm_compute; repeat constructor).
  pose proof (C108_decode p_te p_r be (sa_mem be) (sa_val be) C57_T 53 (dropN 16 C111_octets) [0] dm (p_headers be) B (or_introl eq_refl) L Z) as G.
  assert (E : decode_tlv 53 (dropN 16 C111_octets ++ [0]) (lenN (dropN 16 C111_octets)) = Ok C24_ies) by (vm_compute; reflexivity).
  rewrite E in G. destruct G as (dm' & _ & H). exists dm'. exact H.
Qed.
Lemma C111_received : Forall framed [C111_octets] /\ rx_datagram (concat [C111_octets] ++ []) = [RxMsg C24_h C24_ies].
Proof. split; [constructor; [|constructor]; repeat split; try (vm_compute; discriminate)|vm_compute; reflexivity]. Qed.
Example C111_example be1 be2 : exists dm1 b' dm2,
  mm_msg_encode p_te p_r be1 (sa_mem be1) (sa_val be1) C57_T C111_dirty C24_h dm1 = COk b' /\ takeN (cm_tail b') (cm_mem b') = C111_octets
  /\ mm_rx_datagram p_te p_r be2 (sa_mem be2) (sa_val be2) C57_T C111_octets = [MmMsg C24_h dm2]
  /\ union_holds p_r (cc_lk p_te be2 (sa_mem be2) (sa_val be2) C57_T) (c_ld p_te be2 (sa_val be2)) be2 (hd_type C24_h) dm2 C24_ies.
Proof.
  destruct (C111_held be1) as (dm1 & _ & U). assert (HM : holds (mkMsgb [] 64 None None) C111_dirty) by (vm_compute; repeat split; discriminate).
  assert (HB : bytes_ok (cm_mem C111_dirty)) by (vm_compute; repeat constructor).
  pose proof (C111_encode p_te p_r be1 (sa_mem be1) (sa_val be1) C57_T _ _ C24_h dm1 C24_ies (p_headers be1) U HM HB) as E. cbv zeta in E.
  assert (ME : exists m', msg_encode (mkMsgb [] 64 None None) C24_h C24_ies = MOk m' /\ mb_buf (with_octet 15 (last_octet C24_h 153) m') = C111_octets)
    by (eexists; split; vm_compute; reflexivity).
  destruct ME as (m' & ME & EB). rewrite ME in E. destruct E as (b' & E & H').
  assert (O : nth (N.to_nat (cm_tail C111_dirty + hdr_size (is_some (hd_seid C24_h)) - 1)) (cm_mem C111_dirty) 0 = 153) by reflexivity. rewrite O in H'.
  change (cm_tail C111_dirty + hdr_size (is_some (hd_seid C24_h)) - 1) with 15 in H'.
  pose proof (C111_receive p_te p_r be2 (sa_mem be2) (sa_val be2) C57_T [C111_octets] [] (p_headers be2) (proj1 C111_received) (or_introl eq_refl)
    ltac:(vm_compute; repeat constructor) ltac:(vm_compute; reflexivity)) as R.
  rewrite (proj2 C111_received) in R. change (concat [C111_octets] ++ []) with C111_octets in R.
  destruct (one_message _ _ _ _ _ _ _ _ _ R) as (dm2 & Q & UH).
  exists dm1, b', dm2. split; [exact E|]. split; [destruct H' as (_ & H' & _); rewrite <- EB; exact H'|]. split; [exact Q|exact UH].
Qed.
