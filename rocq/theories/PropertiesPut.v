(* PropertiesPut.v -- the property theorems C91 .. C93 and C98 (what encoding writes, for any values). Proofs are in PutProofs.v,
   PutMeanProofs.v and ShortProofs.v; the specification is PutSpec.v. *)
From Verif Require Import Base BaseProofs GtlvModel DecEncModel IesModel IesSpec TablesModel MsgModel MsgSpec AcceptSpec ErrnoSpec ReadSpec ReadProofs PutSpec PutProofs PutMeanProofs ShortProofs.

(* ---------------------------------------------------------------- C91 *)
(* One IE value, whatever the application stored: if it can be written, exactly its octets are written; otherwise -EINVAL, and no more is
   written than a whole value would take *)
Theorem C91_ie_octets k room x : typed_ie k x -> lenN (ie_written k x) <= room ->
  if writable x then enc_of k room x = (ie_written k x, None)
  else exists b, enc_of k room x = (b, Some EINVAL) /\ lenN b <= lenN (ie_written k x).
Proof. exact (ie_put k room x). Qed.
Print Assumptions C91_ie_octets.
(* All IEs of a message, for any contents of the struct: exactly its octets, or the error of the first value that is refused (or that is
   one too many) *)
Theorem C91_message_octets t l slots cap buf : In (t, l) s_messages -> typed_struct l slots -> lenN buf + lenN (struct_image l slots) <= cap ->
  match struct_error l slots with
  | None => encode_tlv cap buf t slots = EOk (buf ++ struct_image l slots)
  | Some e => exists b, encode_tlv cap buf t slots = EErr b e
  end.
Proof. exact (encode_exact t l slots cap buf). Qed.
Print Assumptions C91_message_octets.
(* the labels of a name are what its dots separate *)
Theorem C91_labels s : join (labels_of s) = s /\ Forall (fun l => ~ In 46 l) (labels_of s).
Proof. exact (labels_join s). Qed.
Print Assumptions C91_labels.

(* Session Modification Response: cause 1, two Created PDRs, the second one's F-TEID with an address of the wrong family *)
Definition C91_l : list ie := match find (fun x => fst x =? 53) s_messages with Some x => snd x | None => [] end.
Definition C91_pdr (v4 : sa) : val iev := VStruct [[VLeaf (IvNum 258)]; [VLeaf (IvFteid (FtFixed 5 (mkAddrs true v4 false SaUnspec)))]].
Definition C91_slots (v4 : sa) : list (slot iev) := [[VLeaf (IvNum 257)]; []; [C91_pdr (Sa4 [1;2;3;4] 99); C91_pdr v4]; []].
Ltac typed_tac := vm_compute; repeat match goal with
  | |- _ /\ _ => split | |- True => exact I | |- Forall _ [] => apply Forall_nil | |- Forall _ (_ :: _) => apply Forall_cons | |- _ = _ => reflexivity
  | |- _ -> False => discriminate | |- not _ => discriminate end.
Example C91_example : In (53, C91_l) s_messages
  /\ typed_struct C91_l (C91_slots (Sa4 [5;6;7;8] 0)) /\ struct_error C91_l (C91_slots (Sa4 [5;6;7;8] 0)) = None
  /\ struct_image C91_l (C91_slots (Sa4 [5;6;7;8] 0)) =
     [0;19;0;1;1; 0;8;0;19; 0;56;0;2;1;2; 0;21;0;9;1;0;0;0;5;1;2;3;4; 0;8;0;19; 0;56;0;2;1;2; 0;21;0;9;1;0;0;0;5;5;6;7;8]
  /\ typed_struct C91_l (C91_slots (Sa6 (repeat 9 16) 0)) /\ struct_error C91_l (C91_slots (Sa6 (repeat 9 16) 0)) = Some EINVAL
  /\ typed_struct C91_l [[VLeaf (IvNum 1)]; []; repeat (C91_pdr SaUnspec) 33; []] /\ struct_error C91_l [[VLeaf (IvNum 1)]; []; repeat (C91_pdr (Sa4 [1;2;3;4] 0)) 33; []] = Some ENOTSUP.
Proof.
  split; [vm_compute; tauto|].
  split; [typed_tac|].
  split; [vm_compute; reflexivity|].
  split; [vm_compute; reflexivity|].
  split; [typed_tac|]. split; [vm_compute; reflexivity|]. split; [|vm_compute; reflexivity].
  typed_tac.
Qed.

(* ---------------------------------------------------------------- C92 *)
(* osmo_pfcp_msg_encode(), for any header and any contents of the struct: what is already in the msgb stays, but for the "follow on" flag of
   the last message; exactly the octets of the message are appended. Or the error of the first thing that is wrong. *)
Theorem C92_encode_exact m h l slots : In (hd_type h, l) s_messages -> typed_struct l slots ->
  lenN (mb_buf m) + header_size h + lenN (struct_image l slots) <= mb_cap m ->
  match message_refusal h l slots with
  | None => exists m', msg_encode m h slots = MOk m'
              /\ mb_buf m' = before m ++ header_image h (lenN (struct_image l slots)) ++ struct_image l slots
              /\ mb_cap m' = mb_cap m /\ mb_l4 m' = Some (lenN (mb_buf m))
  | Some e => exists m', msg_encode m h slots = MErr m' e
  end.
Proof. exact (message_exact m h l slots). Qed.
Print Assumptions C92_encode_exact.
Theorem C92_unsupported_type m h slots : (forall l, ~ In (hd_type h, l) s_messages) -> lenN (mb_buf m) + header_size h <= mb_cap m ->
  exists m', msg_encode m h slots = MErr m' (match hd_prio h, hd_seid h with Some _, None => EINVAL | _, _ => ENOTSUP end).
Proof. exact (message_untabled m h slots). Qed.
Print Assumptions C92_unsupported_type.
Definition C92_l : list ie := match find (fun x => fst x =? 2) s_messages with Some x => snd x | None => [] end.
Example C92_example : In (2, C92_l) s_messages /\ typed_struct C92_l [[VLeaf (IvNum 7)]]
  /\ message_refusal (mkHdr 1 2 None (Some 3) 5) C92_l [[VLeaf (IvNum 7)]] = None
  /\ before (mkMsgb [32;1;0;4;0;0;1;0] 100 None (Some 0)) ++ header_image (mkHdr 1 2 None (Some 3) 5) 8 ++ struct_image C92_l [[VLeaf (IvNum 7)]] =
     [36;1;0;4;0;0;1;0; 33;2;0;20;0;0;0;0;0;0;0;3;0;0;5;0; 0;96;0;4;0;0;0;7]
  /\ message_refusal (mkHdr 1 2 (Some 1) None 5) C92_l [[VLeaf (IvNum 7)]] = Some EINVAL.
Proof.
  split; [vm_compute; tauto|]. split; [typed_tac|].
  split; [vm_compute; reflexivity|]. split; vm_compute; reflexivity.
Qed.

(* ---------------------------------------------------------------- C93 *)
(* Whoever receives the octets of a valid message and reads them as C88 to C90 say reads exactly this header and these contents *)
Theorem C93_sent_means m h l slots : In (hd_type h, l) s_messages -> valid_hdr h -> valid_body l slots ->
  header_size h - 4 + lenN (struct_image l slots) <= 65535 ->
  lenN (mb_buf m) + header_size h + lenN (struct_image l slots) <= mb_cap m ->
  exists m' p, msg_encode m h slots = MOk m' /\ mb_buf m' = before m ++ p /\ framed p /\ bytes_ok p /\ message_means p (RxMsg h slots).
Proof. exact (sent_means m h l slots). Qed.
Print Assumptions C93_sent_means.
Example C93_example : In (53, C91_l) s_messages /\ valid_hdr (mkHdr 1 53 None (Some 3) 5)
  /\ valid_body C91_l [[VLeaf (IvNum 1)]; []; [C91_pdr (Sa4 [1;2;3;4] 0)]; []]
  /\ lenN (struct_image C91_l [[VLeaf (IvNum 1)]; []; [C91_pdr (Sa4 [1;2;3;4] 0)]; []]) = 28.
Proof.
  split; [vm_compute; tauto|]. split; [repeat split|]. split; [|vm_compute; reflexivity].
  assert (A : valid_addrs (mkAddrs true (Sa4 [1;2;3;4] 0) false SaUnspec)).
  { split; [|reflexivity]. exists [1;2;3;4]. split; [reflexivity|]. split; [reflexivity|repeat constructor]. }
  assert (E : C91_l = [Ie 19 Once KCause; Ie 40 Optional KOffendingIe; Grp 8 (Many 0) s_pdr_teid; Grp 256 (Many 0) s_pdr_teid]) by (vm_compute; reflexivity).
  rewrite E. unfold valid_body, C91_pdr, s_pdr_teid. cbn [valid_slots occ_of occ_ok valid_content].
  split; [reflexivity|]. split; [constructor; [reflexivity|constructor]|]. split; [vm_compute; congruence|]. split; [constructor|].
  split; [vm_compute; split; congruence|]. split; [|split; [vm_compute; split; congruence|split; [constructor|exact I]]].
  constructor; [|constructor]. cbn [valid_content valid_slots occ_of occ_ok]. split; [reflexivity|]. split; [constructor; [reflexivity|constructor]|].
  split; [vm_compute; congruence|]. split; [|exact I]. constructor; [|constructor]. split; [reflexivity|exact A].
Qed.

(* Without the hypothesis that the contents are valid this is false. Encoding does not check the number of mandatory IEs: *)
Definition C93_h (t : N) : hdr := mkHdr 1 t None (Some 0) 1.
Definition C93_l (t : N) : list ie := match find (fun x => fst x =? t) s_messages with Some x => snd x | None => [] end.
Theorem C93_mandatory_refuted : exists h l slots m', In (hd_type h, l) s_messages /\ valid_hdr h /\ typed_struct l slots /\
  msg_encode (msgb_new 2048) h slots = MOk m' /\ framed (mb_buf m') /\ bytes_ok (mb_buf m') /\ message_means (mb_buf m') (RxDrop EINVAL).
Proof.
  exists (C93_h 50), (C93_l 50), [[VLeaf (IvNode (NodeV4 (Sa4 [1;2;3;4] 0)))]; []; []; []]. eexists.
  split; [vm_compute; tauto|]. split; [repeat split|]. split; [typed_tac|]. split; [vm_compute; reflexivity|]. cbn [mb_buf].
  assert (F : framed [33; 50; 0; 21; 0; 0; 0; 0; 0; 0; 0; 0; 0; 0; 1; 0; 0; 60; 0; 5; 0; 1; 2; 3; 4]) by (split; [vm_compute; congruence|split; [vm_compute; reflexivity|vm_compute; congruence]]).
  assert (B : bytes_ok [33; 50; 0; 21; 0; 0; 0; 0; 0; 0; 0; 0; 0; 0; 1; 0; 0; 60; 0; 5; 0; 1; 2; 3; 4]) by (repeat constructor).
  split; [exact F|]. split; [exact B|]. apply message_means_iff; [exact F|exact B|vm_compute; reflexivity].
Qed.
Print Assumptions C93_mandatory_refuted.
(* and it does not check the address of a Node ID (nor those of an Outer Header Creation): a Node ID marked IPv4 that holds an IPv6 address
   is sent as 0.0.0.0 *)
Theorem C93_node_id_refuted : exists h l slots m' slots', In (hd_type h, l) s_messages /\ valid_hdr h /\ typed_struct l slots /\
  msg_encode (msgb_new 2048) h slots = MOk m' /\ framed (mb_buf m') /\ bytes_ok (mb_buf m') /\ message_means (mb_buf m') (RxMsg h slots')
  /\ slots' = [[VLeaf (IvNode (NodeV4 (Sa4 [0;0;0;0] 0)))]] /\ slots = [[VLeaf (IvNode (NodeV4 (Sa6 (repeat 9 16) 0)))]].
Proof.
  exists (C93_h 9), (C93_l 9), [[VLeaf (IvNode (NodeV4 (Sa6 (repeat 9 16) 0)))]]. eexists. eexists.
  split; [vm_compute; tauto|]. split; [repeat split|]. split; [typed_tac|]. split; [vm_compute; reflexivity|]. cbn [mb_buf].
  assert (F : framed [33; 9; 0; 21; 0; 0; 0; 0; 0; 0; 0; 0; 0; 0; 1; 0; 0; 60; 0; 5; 0; 0; 0; 0; 0]) by (split; [vm_compute; congruence|split; [vm_compute; reflexivity|vm_compute; congruence]]).
  assert (B : bytes_ok [33; 9; 0; 21; 0; 0; 0; 0; 0; 0; 0; 0; 0; 0; 1; 0; 0; 60; 0; 5; 0; 0; 0; 0; 0]) by (repeat constructor).
  split; [exact F|]. split; [exact B|]. split; [apply message_means_iff; [exact F|exact B|vm_compute; reflexivity]|]. split; reflexivity.
Qed.
Print Assumptions C93_node_id_refuted.

(* ---------------------------------------------------------------- C98 *)
(* osmo_pfcp_msg_encode() into a msgb of any size. It never writes behind its end; the process aborts only if the message does not fit; and
   when it returns success with four octets (the size of an IE header) left, the message is in there, complete. *)
Theorem C98_any_room_partial m h l slots : In (hd_type h, l) s_messages -> typed_struct l slots -> lenN (mb_buf m) <= mb_cap m ->
  match msg_encode m h slots with
  | MUB u => u = MsgbAbort /\ mb_cap m < lenN (mb_buf m) + header_size h + lenN (struct_image l slots)
  | MErr m' _ => lenN (mb_buf m') <= mb_cap m
  | MOk m' => lenN (mb_buf m') <= mb_cap m /\
      (lenN (mb_buf m') + 4 <= mb_cap m -> message_refusal h l slots = None /\
         mb_buf m' = before m ++ header_image h (lenN (struct_image l slots)) ++ struct_image l slots)
  end.
Proof. exact (encode_any_room m h l slots). Qed.
Print Assumptions C98_any_room_partial.
(* success with at least four octets left: exactly if nothing is refused and the message leaves as many *)
Theorem C98_success_partial m h l slots : In (hd_type h, l) s_messages -> typed_struct l slots -> lenN (mb_buf m) <= mb_cap m ->
  ((exists m', msg_encode m h slots = MOk m' /\ lenN (mb_buf m') + 4 <= mb_cap m) <->
   message_refusal h l slots = None /\ lenN (mb_buf m) + header_size h + lenN (struct_image l slots) + 4 <= mb_cap m).
Proof. exact (encode_spare m h l slots). Qed.
Print Assumptions C98_success_partial.
(* Without the four octets success means nothing: a valid Session Modification Request that does not fit in the standard 2048 octets is
   "successfully" encoded, and whoever receives the datagram reads another one: the last IE (3GPP Interface Type) is lost, its
   value has become part of the IE before it (Traffic Endpoint ID), whose reader ignores it. *)
Definition C98_pdr (n : nat) : val iev :=
  VStruct [[VLeaf (IvNum 1)]; [VLeaf (IvNum 2)]; [VStruct [[VLeaf (IvNum 0)]; []; []; []; []; []]]; []; []; [VLeaf (IvStr (repeat 97 n))]].
Definition C98_far (if_type : list (val iev)) : val iev := VStruct [[VLeaf (IvNum 3)]; []; [VStruct [[VLeaf (IvNum 0)]; []; []; [VLeaf (IvNum 7)]; if_type]]].
Definition C98_slots (if_type : list (val iev)) : list (slot iev) := [[]; []; []; repeat (C98_pdr 200) 8 ++ [C98_pdr 124]; []; []; [C98_far if_type]].
Definition C98_m : msgb := match msg_encode (msgb_new 2048) (C93_h 52) (C98_slots [VLeaf (IvNum 5)]) with MOk m' => m' | _ => msgb_new 0 end.
Ltac valid_tac := repeat match goal with
  | |- _ /\ _ => split | |- True => exact I | |- Forall _ [] => apply Forall_nil | |- Forall _ (_ :: _) => apply Forall_cons
  | |- _ = _ => reflexivity | |- _ <= _ => vm_compute; discriminate | |- _ < _ => vm_compute; reflexivity end.
Lemma C98_valid_pdr n : (n <= 255)%nat -> valid_content (Grp 1 (Many 0) s_create_pdr) (C98_pdr n).
Proof.
  intros H. unfold C98_pdr, s_create_pdr, s_pdi. cbn [valid_content valid_slots occ_of occ_ok valid_ie]. valid_tac.
  - apply Forall_forall. intros x Hx. apply repeat_spec in Hx. subst x. split; reflexivity.
  - unfold lenN. rewrite repeat_length. lia.
Qed.
Lemma C98_valid : valid_body (C93_l 52) (C98_slots [VLeaf (IvNum 5)]).
Proof.
  assert (E : C93_l 52 = [ Ie 57 Optional KFSeid; Grp 15 (Many 0) [ Ie 56 Once K16 ]; Grp 16 (Many 0) [ Ie 108 Once K32 ];
           Grp 1 (Many 0) s_create_pdr; Grp 3 (Many 0) s_create_far; Grp 9 (Many 0) s_upd_pdr; Grp 10 (Many 0) s_upd_far ]) by (vm_compute; reflexivity).
  rewrite E. unfold valid_body, C98_slots. cbn [valid_slots occ_of occ_ok].
  assert (F : Forall (valid_content (Grp 1 (Many 0) s_create_pdr)) (repeat (C98_pdr 200) 8 ++ [C98_pdr 124])).
  { apply Forall_app. split; [|constructor; [apply C98_valid_pdr; lia|constructor]]. apply Forall_forall. intros x Hx. apply repeat_spec in Hx. subst x. apply C98_valid_pdr. lia. }
  do 3 (split; [vm_compute; repeat split; discriminate|split; [constructor|]]). split; [vm_compute; split; discriminate|]. split; [exact F|]. clear F.
  do 2 (split; [vm_compute; repeat split; discriminate|split; [constructor|]]). split; [vm_compute; split; discriminate|]. split; [|exact I].
  constructor; [|constructor]. unfold C98_far, s_upd_far, s_forw. cbn [valid_content valid_slots occ_of occ_ok valid_ie]. valid_tac.
Qed.
Theorem C98_success_refuted : exists h l slots m' slots', In (hd_type h, l) s_messages /\ valid_hdr h /\ valid_body l slots
  /\ msg_encode (msgb_new 2048) h slots = MOk m' /\ framed (mb_buf m') /\ bytes_ok (mb_buf m') /\ message_means (mb_buf m') (RxMsg h slots')
  /\ slots = C98_slots [VLeaf (IvNum 5)] /\ slots' = C98_slots [].
Proof.
  exists (C93_h 52), (C93_l 52), (C98_slots [VLeaf (IvNum 5)]), C98_m, (C98_slots []).
  assert (F : framed (mb_buf C98_m)) by (split; [vm_compute; congruence|split; [vm_compute; reflexivity|vm_compute; congruence]]).
  assert (B : bytes_ok (mb_buf C98_m)) by (apply Forall_forall; intros x Hx; apply N.ltb_lt; revert x Hx; apply forallb_forall; vm_compute; reflexivity).
  split; [vm_compute; tauto|]. split; [repeat split|]. split; [exact C98_valid|]. split; [vm_compute; reflexivity|]. split; [exact F|]. split; [exact B|].
  split; [apply message_means_iff; [exact F|exact B|vm_compute; reflexivity]|]. split; reflexivity.
Qed.
Print Assumptions C98_success_refuted.
Example C98_example : In (52, C93_l 52) s_messages /\ typed_struct (C93_l 52) (C98_slots []) /\ message_refusal (C93_h 52) (C93_l 52) (C98_slots []) = None
  /\ header_size (C93_h 52) + lenN (struct_image (C93_l 52) (C98_slots [])) = 2045
  /\ header_size (C93_h 52) + lenN (struct_image (C93_l 52) (C98_slots [VLeaf (IvNum 5)])) = 2050.
Proof.
  split; [vm_compute; tauto|]. split; [typed_tac|]. repeat split; vm_compute; reflexivity.
Qed.
