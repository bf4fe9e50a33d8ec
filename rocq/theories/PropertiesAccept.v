(* PropertiesAccept.v -- which octets the decoders accept (C54, C55). Specification: AcceptSpec.v; proofs: AcceptProofs.v *)
From Verif Require Import Base GtlvModel GtlvSpec DecEncModel DecEncSpec IesModel IesSpec TablesModel MsgModel AcceptSpec AcceptProofs.

(* ---------------------------------------------------------------- C54 *)
(* osmo_pfcp_msg_decode_tlv(): for each of the twelve supported message types, a message body is accepted if and only if it
   is a sequence of TLVs in which each IE of TS 29.244 that the implementation knows for that type (and, in grouped IEs, for
   that group) occurs as often as it must and may, with acceptable contents. [rest] is the memory behind the body. *)
Theorem C54_message_grammar t l d rest : In (t, l) s_messages -> bytes_ok d -> In 0 rest ->
  ((exists ies, decode_tlv t (d ++ rest) (lenN d) = Ok ies) <-> body_ok l d).
Proof. exact (message_accept t l d rest). Qed.
Print Assumptions C54_message_grammar.
(* All other message types are refused with -ENOTSUP, for decoding and for encoding, and nothing is encoded. *)
Theorem C54_unsupported_type t : (forall l, ~ In (t, l) s_messages) ->
  (forall m len, decode_tlv t m len = Err ENOTSUP) /\ (forall cap buf ies, encode_tlv cap buf t ies = EErr buf ENOTSUP).
Proof. exact (message_unknown t). Qed.
Print Assumptions C54_unsupported_type.
(* An Association Setup Response with an unknown IE (type 9999) in between and a missing-Cause variant of it *)
Definition C54_nodeid : list N := [0; 60; 0; 5; 0; 127; 0; 0; 1].
Definition C54_cause : list N := [0; 19; 0; 1; 1].
Definition C54_rts : list N := [0; 96; 0; 4; 1; 2; 3; 4].
Definition C54_unknown : list N := [39; 15; 0; 2; 7; 7].
Definition C54_good : list N := C54_nodeid ++ C54_unknown ++ C54_rts ++ C54_cause.
Example C54_example : exists l, In (6, l) s_messages /\ body_ok l C54_good /\ ~ body_ok l (C54_nodeid ++ C54_rts)
  /\ (exists ies, decode_tlv 6 (C54_good ++ [0]) (lenN C54_good) = Ok ies) /\ (forall l', ~ In (3, l') s_messages).
Proof.
  exists [ Ie 60 Once KNodeId; Ie 19 Once KCause; Ie 96 Once K32; Ie 43 Optional KUpFF; Ie 89 Optional KCpFF ].
  assert (Hin : In (6, [ Ie 60 Once KNodeId; Ie 19 Once KCause; Ie 96 Once K32; Ie 43 Optional KUpFF; Ie 89 Optional KCpFF ]) s_messages) by (cbn [In s_messages]; tauto).
  assert (Hd : exists ies, decode_tlv 6 (C54_good ++ [0]) (lenN C54_good) = Ok ies) by (eexists; vm_compute; reflexivity).
  split; [exact Hin|]. split; [|split; [|split]].
  - apply (message_accept 6 _ C54_good [0] Hin); [|left; reflexivity|exact Hd]. vm_compute. repeat constructor.
  - intros H. apply (message_accept 6 _ (C54_nodeid ++ C54_rts) [0] Hin) in H; [|vm_compute; repeat constructor|left; reflexivity].
    destruct H as [ies H]. vm_compute in H. discriminate H.
  - exact Hd.
  - intros l' H. cbn [In s_messages] in H. repeat (destruct H as [H|H]; [discriminate H|]). exact H.
Qed.

(* ---------------------------------------------------------------- C55 *)
(* osmo_pfcp_dec_*(): the value of an IE is accepted if and only if it is long enough for what its flags announce
   (respectively has exactly the fixed length). [rest] is the memory behind the value; only the "activate predefined rules"
   decoder looks at it. *)
Theorem C55_ie_grammar k v rest : (k = KActPredef -> In 0 rest) ->
  ((exists x, dec_of k (v ++ rest) (lenN v) = Ok x) <-> ie_accept k v).
Proof. exact (ie_accept_iff k v rest). Qed.
Print Assumptions C55_ie_grammar.
(* Octets of a later protocol version behind the known contents of an extendable IE do not change what is decoded. *)
Theorem C55_extendable k v e rest rest' x : extendable k v -> dec_of k (v ++ rest) (lenN v) = Ok x ->
  dec_of k ((v ++ e) ++ rest') (lenN (v ++ e)) = Ok x.
Proof. exact (ie_extend k v e rest rest' x). Qed.
Print Assumptions C55_extendable.
(* F-SEID with both addresses, one octet short and complete; a Cause of two octets *)
Example C55_example : ie_accept KFSeid ([3] ++ repeat 1 28) /\ ~ ie_accept KFSeid ([3] ++ repeat 1 27) /\ ~ ie_accept KCause [1; 1]
  /\ extendable KFSeid ([3] ++ repeat 1 28) /\ exists x, dec_of KFSeid ([3] ++ repeat 1 28) 29 = Ok x.
Proof.
  split; [vm_compute; discriminate|]. split; [intros H; apply H; vm_compute; reflexivity|]. split; [intros H; discriminate H|].
  split; [exact I|eexists; vm_compute; reflexivity].
Qed.
