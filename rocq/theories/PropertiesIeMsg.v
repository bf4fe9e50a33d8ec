(* PropertiesIeMsg.v -- C108: messages in memory, with all IE functions as programs on the structs, on any ABI. Proofs: IeMsgProofs.v *)
From Coq Require Import String Ascii.
From Verif Require Import Base BaseProofs GtlvModel DecEncModel CStr IesModel TablesModel MsgModel MsgSpec StrModel MemModel MemSpec MemTest GenModel GenPfcp GenPfcpProofs PfcpMem PfcpMemFinal PropertiesStr PropertiesGen IeMemModel IeMemSpec PropertiesIeMem IeEncModel IeEncSpec IeMsgModel IeMsgSpec IeMsgProofs.
Local Open Scope string_scope.
Local Open Scope N_scope.
Local Open Scope list_scope.

(* [cc_lk]: decoders, encoders and printing functions load and store struct members (IeMemModel.v, IeEncModel.v); nothing about IEs is assumed.
   [abi_and_headers]: an ABI as in C104 and compiled headers and tables as in C66. *)
Definition abi_and_headers (te : tenv) (r : generated) (sa_img : sa -> list N) (sa_rd : list N -> sa) : Prop :=
  ie_abi te sa_img sa_rd /\ pfcp_env te /\ gen_and_compile pfcp_cfg te pfcp_ce pfcp_msgs = Some r /\ gen_union_size pfcp_cfg r < 2 ^ 32.

(* ---------------------------------------------------------------- C108 *)
(* Octets to octets and to text: the IEs of a received message are decoded into the zeroed union, and from there encoded or printed. *)
Theorem C108_forward te r be sa_img sa_rd T t d rest dm slots : abi_and_headers te r sa_img sa_rd ->
  bytes_ok (d ++ rest) -> In 0 rest -> lenN dm = gen_union_size pfcp_cfg r -> Forall (fun b => b = 0) dm ->
  decode_tlv t (d ++ rest) (lenN d) = Ok slots ->
  exists dm', gen_ies_decode pfcp_cfg r (cc_lk te be sa_img sa_rd T) be t16l16v false t (d ++ rest) (lenN d) dm = (dm', Ok tt)
    /\ (forall cap buf, gen_ies_encode pfcp_cfg r (cc_lk te be sa_img sa_rd T) be dm' t t16l16v cap buf = encode_tlv cap buf t slots)
    /\ (forall b n, gen_ies_to_str pfcp_cfg r (cc_lk te be sa_img sa_rd T) be dm' t (tx_iei T) b n = ies_to_str T t slots b n).
Proof.
  intros (HA & HE & HG & HU) HB HR HL HZ E. pose proof (cc_decode te r be sa_img sa_rd T HA HE HG HU t d rest dm HB HR HL HZ) as G. rewrite E in G. destruct G as (dm' & E1 & H1 & H2).
  exists dm'. split; [exact E1|]. split; intros; [exact (cc_encode te r be sa_img sa_rd T HA HE HG HU t dm' slots _ _ H2)|exact (cc_print te r be sa_img sa_rd T HA HE HG HU t dm' slots _ _ H1)].
Qed.
Theorem C108_decode te r be sa_img sa_rd T t d rest dm : abi_and_headers te r sa_img sa_rd ->
  bytes_ok (d ++ rest) -> In 0 rest -> lenN dm = gen_union_size pfcp_cfg r -> Forall (fun b => b = 0) dm ->
  match decode_tlv t (d ++ rest) (lenN d) with
  | Ok slots => exists dm', gen_ies_decode pfcp_cfg r (cc_lk te be sa_img sa_rd T) be t16l16v false t (d ++ rest) (lenN d) dm = (dm', Ok tt)
      /\ union_holds r (cc_lk te be sa_img sa_rd T) (c_ld te be sa_rd) be t dm' slots /\ union_ends te be sa_rd r (cc_lk te be sa_img sa_rd T) t dm' slots
  | Err e => exists dm', gen_ies_decode pfcp_cfg r (cc_lk te be sa_img sa_rd T) be t16l16v false t (d ++ rest) (lenN d) dm = (dm', Err e) /\ lenN dm' = gen_union_size pfcp_cfg r
  | UB _ => False
  end.
Proof. intros (HA & HE & HG & HU). exact (cc_decode te r be sa_img sa_rd T HA HE HG HU t d rest dm). Qed.
(* Any union that holds a message, however it was filled, if its strings have their NUL; *)
Theorem C108_encode te r be sa_img sa_rd T t dm slots cap buf : abi_and_headers te r sa_img sa_rd -> union_ends te be sa_rd r (cc_lk te be sa_img sa_rd T) t dm slots ->
  gen_ies_encode pfcp_cfg r (cc_lk te be sa_img sa_rd T) be dm t t16l16v cap buf = encode_tlv cap buf t slots.
Proof. intros (HA & HE & HG & HU). exact (cc_encode te r be sa_img sa_rd T HA HE HG HU t dm slots cap buf). Qed.
(* printing does not need the NUL; *)
Theorem C108_print te r be sa_img sa_rd T t dm slots b n : abi_and_headers te r sa_img sa_rd -> union_holds r (cc_lk te be sa_img sa_rd T) (c_ld te be sa_rd) be t dm slots ->
  gen_ies_to_str pfcp_cfg r (cc_lk te be sa_img sa_rd T) be dm t (tx_iei T) b n = ies_to_str T t slots b n.
Proof. intros (HA & HE & HG & HU). exact (cc_print te r be sa_img sa_rd T HA HE HG HU t dm slots b n). Qed.
(* a valid message in the union has it: encoding appends its octets, and decoding these into another zeroed union gives the message again. *)
Theorem C108_roundtrip te r be sa_img sa_rd T t tab slots bs dm dm2 buf cap rest : abi_and_headers te r sa_img sa_rd ->
  get_msg_coding t = Some tab -> valid_struct tab slots -> wire_struct tab slots bs ->
  lenN bs <= 65535 -> lenN buf + lenN bs <= cap -> bytes_ok (bs ++ rest) -> In 0 rest ->
  union_holds r (cc_lk te be sa_img sa_rd T) (c_ld te be sa_rd) be t dm slots -> lenN dm2 = gen_union_size pfcp_cfg r -> Forall (fun b => b = 0) dm2 ->
  gen_ies_encode pfcp_cfg r (cc_lk te be sa_img sa_rd T) be dm t t16l16v cap buf = EOk (buf ++ bs)
  /\ exists dm', gen_ies_decode pfcp_cfg r (cc_lk te be sa_img sa_rd T) be t16l16v false t (bs ++ rest) (lenN bs) dm2 = (dm', Ok tt)
       /\ union_holds r (cc_lk te be sa_img sa_rd T) (c_ld te be sa_rd) be t dm' slots.
Proof.
  intros (HA & HE & HG & HU) HT HV HW H1 H2 HB HR HH HL HZ. split.
  - rewrite (cc_encode te r be sa_img sa_rd T HA HE HG HU t dm slots cap buf (cc_valid te r be sa_img sa_rd T HA HE HG HU t tab dm slots HT HV HH)).
    exact (MsgProofs.encode_tlv_wire t tab slots bs buf cap HT HV HW H1 H2).
  - pose proof (cc_decode te r be sa_img sa_rd T HA HE HG HU t bs rest dm2 HB HR HL HZ) as G. rewrite (MsgProofs.decode_tlv_wire t tab slots bs rest HT HV HW H1 HR) in G.
    destruct G as (dm' & E & H & _). exists dm'. auto.
Qed.
Print Assumptions C108_forward.
Print Assumptions C108_decode.
Print Assumptions C108_encode.
Print Assumptions C108_print.
Print Assumptions C108_roundtrip.
(* on the usual 64-bit ABI, big or little endian: the Session Establishment Response of C67, decoded into memory, is encoded to the same octets *)
Lemma p_headers be : abi_and_headers p_te p_r (sa_mem be) (sa_val be).
Proof. split; [exact (proj1 (C104_example be))|]. split; [exact p_env|]. split; [exact p_gen_some|]. rewrite p_union_size. reflexivity. Qed.
Lemma zero_union : exists dm, lenN dm = gen_union_size pfcp_cfg p_r /\ Forall (fun b => b = 0) dm.
Proof.
  exists (repeat 0 (N.to_nat (gen_union_size pfcp_cfg p_r))). split; [unfold lenN; rewrite repeat_length; apply N2Nat.id|]. apply Forall_forall. intros x Hx. apply repeat_spec in Hx. exact Hx.
Qed.
Example C108_example be : exists dm dm', lenN dm = gen_union_size pfcp_cfg p_r
  /\ gen_ies_decode pfcp_cfg p_r (cc_lk p_te be (sa_mem be) (sa_val be) C57_T) be t16l16v false 51 (C67_wire ++ [0]) (lenN C67_wire) dm = (dm', Ok tt)
  /\ gen_ies_encode pfcp_cfg p_r (cc_lk p_te be (sa_mem be) (sa_val be) C57_T) be dm' 51 t16l16v 2048 [7] = EOk (7 :: C67_wire)
  /\ gen_ies_encode pfcp_cfg p_r (cc_lk p_te be (sa_mem be) (sa_val be) C57_T) be dm' 51 t16l16v 20 [] = EUB MsgbAbort.
Proof.
  destruct zero_union as (dm & L & Z).
  destruct (C108_forward p_te p_r be (sa_mem be) (sa_val be) C57_T 51 C67_wire [0] dm C67_slots (p_headers be) C67_bytes (or_introl eq_refl) L Z (proj1 (proj2 (proj2 (C67_example be))))) as (dm' & E & F & _).
  exists dm, dm'. split; [exact L|]. split; [exact E|]. rewrite !F. split; vm_compute; reflexivity.
Qed.
