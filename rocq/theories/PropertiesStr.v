(* PropertiesStr.v -- human readable output (C56-C58). Specification: StrSpec.v; proofs: StrProofs.v *)
From Coq Require Import String.
From Verif Require Import Base GtlvModel DecEncModel IesModel TablesModel MsgModel StrModel StrSpec StrProofs.

(* ---------------------------------------------------------------- C56 *)
(* osmo_gtlvs_encode_to_str_buf(): for every coding table and every struct that belongs to it, if the enc_to_str functions of
   the leaves write their texts, the text written is that of the struct -- all present members in table order, every value of
   repeated members, at every depth -- cut off like snprintf() does for any buffer size, and its full length is returned. *)
Theorem C56_struct_text {V K} (lf : K -> option (V -> strfn)) (lt : K -> V -> list N) names (P : K -> V -> Prop) ies slots :
  (forall k v, P k v -> match lf k with Some f => renders (f v) (lt k v) | None => lt k v = str "(enc_to_str_func==NULL)" end) ->
  struct_fits true P ies slots ->
  renders (gtlvs_to_str lf names (Some ies) slots) (struct_text lt names ies slots).
Proof. exact (fun H HF => gtlvs_good lf lt names P MText H ies slots HF). Qed.
Print Assumptions C56_struct_text.
(* With a NULL buffer the same length is returned. *)
Theorem C56_struct_length {V K} (lf : K -> option (V -> strfn)) (lt : K -> V -> list N) names (P : K -> V -> Prop) ies slots :
  (forall k v, P k v -> match lf k with Some f => measures (f v) (lt k v) | None => lt k v = str "(enc_to_str_func==NULL)" end) ->
  struct_fits true P ies slots ->
  measures (gtlvs_to_str lf names (Some ies) slots) (struct_text lt names ies slots).
Proof. exact (fun H HF => gtlvs_good lf lt names P MNull H ies slots HF). Qed.
Print Assumptions C56_struct_length.
(* Whatever the counts in the struct and whatever the leaves print: nothing is written outside of the buffer, and an error is
   returned exactly if there is no table or some member of the outermost struct has more values than it can hold. *)
Theorem C56_no_overflow {V K} (lf : K -> option (V -> strfn)) names (P : K -> V -> Prop) ies slots :
  (forall k v f, P k v -> lf k = Some f -> bounded (f v)) -> struct_fits false P ies slots ->
  bounded (gtlvs_to_str lf names (Some ies) slots)
  /\ forall m n, n <= lenN m -> exists m' r, gtlvs_to_str lf names (Some ies) slots (Some m) n = Ok (Some m', r)
       /\ ((r < 0)%Z <-> overfull ies slots).
Proof. exact (gtlvs_no_overflow lf names P ies slots). Qed.
Print Assumptions C56_no_overflow.
Theorem C56_no_table {V K} (lf : K -> option (V -> strfn)) names slots b n :
  gtlvs_to_str lf names None slots b n = Ok (b, ENOTSUP_rc).
Proof. reflexivity. Qed.
(* osmo_gtlv_tag_inst_to_str_buf() *)
Theorem C56_tag_inst ti names :
  renders (tag_inst_to_str ti names) (tag_inst_text ti names) /\ measures (tag_inst_to_str ti names) (tag_inst_text ti names).
Proof. exact (conj (tag_inst_good MText ti names) (tag_inst_good MNull ti names)). Qed.
Print Assumptions C56_tag_inst.
(* "%u" and "%x" are decimal and hexadecimal notation without leading zeros *)
Theorem C56_numbers n :
  dec_value (pf_u n) = n /\ Forall (fun c => 48 <= c <= 57) (pf_u n) /\ (forall l, pf_u n = 48 :: l -> l = [])
  /\ hex_value (pf_x n) = n /\ Forall (fun c => 48 <= c <= 57 \/ 97 <= c <= 102) (pf_x n) /\ (forall l, pf_x n = 48 :: l -> l = []).
Proof.
  exact (conj (pf_u_value n) (conj (dec_digits _) (conj (pf_u_head n) (conj (pf_x_value n) (conj (hex_digits _) (pf_x_head n)))))).
Qed.
Print Assumptions C56_numbers.

(* a struct with a mandatory, an absent optional, a repeated and a nested member; a buffer that is too small; too many values *)
Definition C56_lf (k : unit) : option (N -> strfn) := Some (fun v => snprintf (pf_u v)).
Definition C56_lt (k : unit) (v : N) : list N := pf_u v.
Definition C56_names (t : N) : list N := if t =? 1 then str "foo" else if t =? 2 then str "bar" else str "nest".
Definition C56_ies : list (tcoding unit) :=
  [ TLeaf (mkHead (ti_of_tag 1) false None) tt; TLeaf (mkHead (ti_of_tag 2) true None) tt;
    TLeaf (mkHead (ti_of_tag 2) false (Some (3, 0))) tt;
    TNest (mkHead (ti_of_tag 3) false None) [ TLeaf (mkHead (ti_of_tag 1) false None) tt ] ].
Definition C56_slots : list (slot N) := [ [VLeaf 23]; []; [VLeaf 4; VLeaf 5]; [VStruct [[VLeaf 6]]] ].
Example C56_example :
  struct_fits true (fun _ _ => True) C56_ies C56_slots
  /\ struct_text C56_lt C56_names C56_ies C56_slots = str " 'foo'=23 'bar'={ 4, 5 } 'nest'={ 'foo'=6 }"
  /\ gtlvs_to_str C56_lf C56_names (Some C56_ies) C56_slots (Some (repeat 1 12)) 10 = Ok (Some (str " 'foo'=23" ++ [0; 1; 1]), 43%Z)
  /\ struct_fits false (fun _ _ => True) C56_ies [ [VLeaf 23]; []; [VLeaf 4; VLeaf 5; VLeaf 6; VLeaf 7]; [VStruct [[VLeaf 6]]] ]
  /\ overfull C56_ies [ [VLeaf 23]; []; [VLeaf 4; VLeaf 5; VLeaf 6; VLeaf 7]; [VStruct [[VLeaf 6]]] ]
  /\ tag_inst_text (mkTi 7 true 2) None = str "7[2]".
Proof.
  assert (Hf : forall c v, (c = true -> lenN v <= 3) -> Forall (fun x => exists y, x = VLeaf y) v ->
    struct_fits c (fun _ _ => True) C56_ies [ [VLeaf 23]; []; v; [VStruct [[VLeaf 6]]] ]).
  { intros c v Hl Hv. constructor; [split; [reflexivity|constructor; [exact I|constructor]]|].
    constructor; [split; [vm_compute; discriminate|constructor]|].
    constructor; [split; [exact Hl|revert Hv; apply Forall_impl; intros x [y ->]; exact I]|].
    constructor; [split; [reflexivity|constructor; [|constructor]]|constructor].
    split; [reflexivity|]. split; [constructor; [exact I|constructor]|exact I]. }
  split; [apply Hf; [intros _; vm_compute; discriminate|repeat (constructor; [eexists; reflexivity|]); constructor]|].
  split; [vm_compute; reflexivity|]. split; [vm_compute; reflexivity|].
  split; [apply Hf; [discriminate|repeat (constructor; [eexists; reflexivity|]); constructor]|].
  split; [|vm_compute; reflexivity]. unfold overfull. right. right. left. reflexivity.
Qed.

(* ---------------------------------------------------------------- C57 *)
(* osmo_pfcp_enc_to_str_*(): every IE value -- any number, address, string, flags -- is written as its text, into a buffer of
   any size. *)
Theorem C57_ie_text T k v : printable k v -> renders (ie_to_str T k v) (ie_text T k v).
Proof. exact (fun H => ie_good T MText k v (ok_text k v H)). Qed.
Print Assumptions C57_ie_text.
(* osmo_pfcp_msg_to_str_buf(): header and IEs of every message of a supported type *)
Theorem C57_message_text T m ies : get_msg_coding (hd_type (m_h m)) = Some ies ->
  struct_fits true printable (map ttab ies) (m_ies m) -> renders (msg_to_str T m) (msg_text T ies m).
Proof.
  exact (fun Ec HF => msg_good T MText m ies Ec (struct_fits_impl true true _ _ _ _ (fun h => h) ok_text HF)).
Qed.
Print Assumptions C57_message_text.
(* ... and whatever the counts, it does not write outside of the buffer. *)
Theorem C57_message_no_overflow T m ies : get_msg_coding (hd_type (m_h m)) = Some ies ->
  struct_fits false printable (map ttab ies) (m_ies m) -> bounded (msg_to_str T m).
Proof.
  exact (fun Ec HF => msg_good T MSafe m ies Ec (struct_fits_impl false false _ _ _ _ (fun h => h) ok_safe HF)).
Qed.
Print Assumptions C57_message_no_overflow.
(* a message of an unsupported type: the header is written; the length returned counts two characters that are not *)
Theorem C57_unsupported_type T m m0 n : get_msg_coding (hd_type (m_h m)) = None -> n <= lenN m0 ->
  exists m', msg_to_str T m (Some m0) n = Ok (Some m', Z.of_N (lenN (msg_hdr_text T (m_h m)) + 2)) /\ printed (msg_hdr_text T (m_h m)) n m0 m'.
Proof. exact (msg_unsupported T m m0 n). Qed.
Print Assumptions C57_unsupported_type.
(* osmo_pfcp_msg_log_info_buf() *)
Theorem C57_log_info_text T m fi cause :
  renders (msg_log_info T m fi cause) (match m with None => str "NULL" | Some m => log_text T m fi cause end).
Proof. exact (msg_log_good T MText m fi cause). Qed.
Print Assumptions C57_log_info_text.
(* The names printed for feature flags, apply action and outer header creation determine the bits. *)
Theorem C57_bits_faithful a b :
  (bits_text a up_feature_strs = bits_text b up_feature_strs -> forall i, i < 40 -> bit_is_set a i = bit_is_set b i)
  /\ (bits_text a cp_feature_strs = bits_text b cp_feature_strs -> forall i, i < 8 -> bit_is_set a i = bit_is_set b i)
  /\ (bits_text a apply_action_strs = bits_text b apply_action_strs -> forall i, i < 11 -> bit_is_set a i = bit_is_set b i)
  /\ (bits_text a ohc_strs = bits_text b ohc_strs -> forall i, i < 10 -> bit_is_set a i = bit_is_set b i).
Proof. exact (all_faithful a b). Qed.
Print Assumptions C57_bits_faithful.
(* Full statement that does not hold: "a NULL buffer yields the length of the text". It fails for a UE IP Address with flags ... *)
Theorem C57_ue_ip_length_refuted T : exists v, printable KUeIp v /\ ~ measures (ie_to_str T KUeIp v) (ie_text T KUeIp v).
Proof.
  exists (IvUeip (mkUeip true true false no_addrs false 0 false 0)). split; [exact I|]. intros H. vm_compute in H. discriminate H.
Qed.
Print Assumptions C57_ue_ip_length_refuted.
(* ... and holds without. *)
Theorem C57_message_length_partial T m ies : get_msg_coding (hd_type (m_h m)) = Some ies ->
  struct_fits true (fun k v => printable k v /\ no_ue_flags k v) (map ttab ies) (m_ies m) -> measures (msg_to_str T m) (msg_text T ies m).
Proof.
  exact (fun Ec HF => msg_good T MNull m ies Ec (struct_fits_impl true true _ _ _ _ (fun h => h) ok_null HF)).
Qed.
Print Assumptions C57_message_length_partial.
(* "The text of a UE IP Address tells which address is to be chosen" does not hold: CHV6 is printed as "chv4". *)
Theorem C57_ue_ip_choose_refuted T : exists x, ue_chv4 x = false /\ ue_chv6 x = true /\ ie_text T KUeIp (IvUeip x) = str ",chv4,empty:-addr".
Proof. exact (ex_intro _ (mkUeip true false false no_addrs false 0 false 0) (conj eq_refl (conj eq_refl eq_refl))). Qed.
Print Assumptions C57_ue_ip_choose_refuted.

Definition C57_T : texts := mkTexts pf_u pf_u (fun _ => str "SESSION_EST_RESP") pf_u pf_u pf_u pf_u (fun _ => str "1.2.3.4") (fun s => s).
Definition C57_hdr : hdr := mkHdr 1 51 None (Some 291) 5.
Definition C57_msg : pmsg := mkMsg (Sa4 [1; 2; 3; 4] 8805) true true C57_hdr
  [ [VLeaf (IvNode (NodeV4 (Sa4 [1; 2; 3; 4] 0)))]; [VLeaf (IvNum 1)]; []; [];
    [VStruct [[VLeaf (IvNum 7)]; [VLeaf (IvFteid (FtChoose true false true 9))]]] ].
Example C57_example : get_msg_coding 51 = Some ies_session_est_resp
  /\ struct_fits true printable (map ttab ies_session_est_resp) (m_ies C57_msg)
  /\ msg_text C57_T ies_session_est_resp C57_msg
     = str "PFCPv1 SESSION_EST_RESP hdr={seq=5 SEID=0x123} ies={ '60'=v4:1.2.3.4 '19'=1 '8'={ { '56'=7 '21'=CHOOSE-v4-id9 } } }"
  /\ printable KOhc (IvOhc (mkOhc [5; 1] true 77 no_addrs false 0 false 0 false 0))
  /\ ie_text C57_T KOhc (IvOhc (mkOhc [5; 1] true 77 no_addrs false 0 false 0 false 0))
     = str "GTP_U_UDP_IPV4+UDP_IPV4+N19_INDICATION,TEID:0x4d,empty:-addr"
  /\ get_msg_coding 3 = None.
Proof.
  split; [reflexivity|]. split; [|split; [vm_compute; reflexivity|split; [reflexivity|split; [vm_compute; reflexivity|reflexivity]]]].
  unfold struct_fits. cbn [map ttab ies_session_est_resp C57_msg m_ies].
  constructor; [split; [reflexivity|constructor; [exact I|constructor]]|].
  constructor; [split; [reflexivity|constructor; [exact I|constructor]]|].
  constructor; [split; [vm_compute; discriminate|constructor]|].
  constructor; [split; [vm_compute; discriminate|constructor]|].
  constructor; [split; [intros _; vm_compute; discriminate|constructor; [|constructor]]|constructor].
  cbn [val_fits map ttab ies_created_pdr].
  split; [reflexivity|]. split; [constructor; [exact I|constructor]|]. split; [vm_compute; discriminate|]. split; [constructor; [exact I|constructor]|exact I].
Qed.

(* ---------------------------------------------------------------- C58 *)
(* The _c variants: if the _buf function writes a text that is not empty, they return a NUL terminated string of the whole text,
   whatever its length, the initial buffer size and the contents of the allocated memory. *)
Theorem C58_c_string init f s m1 m2 : renders f s -> s <> [] -> lenN m1 = init -> (forall l, lenN (m2 l) = l) ->
  exists mem, to_str_c init f m1 m2 = Ok mem /\ c_string mem s.
Proof. exact (name_c_full init (str "ERROR") f s m1 m2). Qed.
Print Assumptions C58_c_string.
(* osmo_pfcp_msg_to_str_c() of every message: supported types in full, unsupported ones up to the IEs *)
Theorem C58_message_c T m init m1 m2 : lenN m1 = init -> (forall l, lenN (m2 l) = l) ->
  match get_msg_coding (hd_type (m_h m)) with Some ies => struct_fits true printable (map ttab ies) (m_ies m) | None => True end ->
  exists mem, to_str_c init (msg_to_str T m) m1 m2 = Ok mem
    /\ c_string mem (match get_msg_coding (hd_type (m_h m)) with Some ies => msg_text T ies m | None => msg_hdr_text T (m_h m) end).
Proof. exact (msg_c_full T m init m1 m2). Qed.
Print Assumptions C58_message_c.
(* The full statement, without "not empty", does not hold: osmo_gtlvs_encode_to_str_c() of a struct in which no member is
   present returns the allocated memory as it is, which need not be a string at all. *)
Theorem C58_empty_struct_refuted : exists (ies : list (tcoding unit)) (slots : list (slot N)),
  struct_fits true (fun _ _ => True) ies slots
  /\ exists m1, lenN m1 = 256 /\ forall m2, to_str_c 256 (gtlvs_to_str C56_lf C56_names (Some ies) slots) m1 m2 = Ok m1
       /\ forall s, ~ c_string m1 s.
Proof.
  exists [ TLeaf (mkHead (ti_of_tag 2) true None) tt ], [ [] ]. split; [constructor; [split; [vm_compute; discriminate|constructor]|constructor]|].
  exists (repeat 65 256). split; [reflexivity|]. intros m2. split; [reflexivity|]. intros s [rest H].
  assert (Hin : In 0 (repeat 65 256)) by (rewrite H; apply in_or_app; right; left; reflexivity).
  apply repeat_spec in Hin. discriminate Hin.
Qed.
Print Assumptions C58_empty_struct_refuted.
Example C58_example : exists mem, to_str_c 20 (msg_to_str C57_T C57_msg) (repeat 65 20) (fun l => repeat 66 (N.to_nat l)) = Ok mem
  /\ c_string mem (msg_text C57_T ies_session_est_resp C57_msg).
Proof.
  apply (msg_c_full C57_T C57_msg 20); [reflexivity|intros l; unfold lenN; rewrite repeat_length; lia|]. exact (proj1 (proj2 C57_example)).
Qed.
