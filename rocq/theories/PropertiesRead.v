(* PropertiesRead.v -- the property theorems C87 .. C90, C99: which error code failing decoding returns, and what accepted octets mean.
   Vocabulary: ErrnoSpec, ReadSpec, AcceptSpec, MsgSpec. *)
From Verif Require Import Base GtlvModel GtlvSpec DecEncModel DecEncSpec DecEncProofs GtlvInst TestTables RepSpec IesModel IesSpec TablesModel MsgModel MsgSpec
  AcceptSpec AcceptProofs ErrnoSpec ErrnoProofs ReadSpec ReadProofs RepProofs RepErrProofs GtlvProofs.

(* ---------------------------------------------------------------- C87 *)
(* osmo_gtlvs_decode() with an unordered table, any data: it fails with [e] if and only if [e] is the code of the first thing that
   is wrong: an IE that occurs too often, an IE whose value is refused, a broken end of the data, a missing IE. *)
Theorem C87_first_error {V : Type} Tail c (ies : list (coding V)) d rest e :
  cfg_ok c -> tail_closed Tail -> Tail rest ->
  Forall (all_leaves (leaf_local Tail)) ies -> Forall (all_cfgs cfg_ok) ies ->
  distinct_tags ies -> maxes_pos ies -> small_table ies ->
  (gtlvs_decode c false (Some ies) (d ++ rest) (lenN d) = Err e <->
   exists items en, reads c d items en /\ first_error c rest ies items en e).
Proof. exact (decode_error Tail c ies d rest e). Qed.
Print Assumptions C87_first_error.
(* osmo_pfcp_dec_*() *)
Theorem C87_ie_errno k v rest e : (k = KActPredef -> In 0 rest) ->
  (dec_of k (v ++ rest) (lenN v) = Err e <-> ~ ie_accept k v /\ e = ie_errno k v).
Proof. exact (ie_error k v rest e). Qed.
Print Assumptions C87_ie_errno.
(* osmo_pfcp_msg_decode_tlv(): the same for the twelve message types, down to the nested IEs *)
Theorem C87_message_errno t l d rest e : In (t, l) s_messages -> bytes_ok d -> In 0 rest ->
  (decode_tlv t (d ++ rest) (lenN d) = Err e <-> body_error l d e).
Proof. exact (message_error t l d rest e). Qed.
Print Assumptions C87_message_errno.
(* The body of an Association Setup Response. Two Causes: ENOTSUP although the Node ID is missing as well; a Cause of two octets;
   a Node ID with an empty name; cut off; without recovery time stamp. *)
Definition C87_l : list ie := [ Ie 60 Once KNodeId; Ie 19 Once KCause; Ie 96 Once K32; Ie 43 Optional KUpFF; Ie 89 Optional KCpFF ].
Example C87_example : In (6, C87_l) s_messages
  /\ body_error C87_l [0;19;0;1;1; 0;19;0;1;1] ENOTSUP /\ body_error C87_l [0;19;0;2;1;1; 0;19;0;1;1] EINVAL
  /\ body_error C87_l [0;60;0;1;2; 0;19;0;2;1;1] ERANGE /\ body_error C87_l [0;19;0;1;1; 0;96;0;4;0;0] EBADMSG
  /\ body_error C87_l [0;60;0;5;0;127;0;0;1; 0;19;0;1;1] EINVAL
  /\ ~ (exists e, body_error C87_l [0;60;0;5;0;127;0;0;1; 0;19;0;1;1; 0;96;0;4;0;0;0;7] e).
Proof.
  assert (Hin : In (6, C87_l) s_messages) by (cbn [In s_messages]; unfold C87_l; tauto).
  assert (K : forall d e, bytes_ok d -> decode_tlv 6 (d ++ [0]) (lenN d) = Err e -> body_error C87_l d e).
  { intros d e Hb H. apply (message_error 6 C87_l d [0] e Hin Hb); [left; reflexivity|exact H]. }
  split; [exact Hin|]. do 5 (split; [apply K; [vm_compute; repeat constructor|vm_compute; reflexivity]|]).
  intros [e H]. apply (message_error 6 C87_l _ [0] e Hin) in H; [vm_compute in H; discriminate H|vm_compute; repeat constructor|left; reflexivity].
Qed.
(* a generic table: the third of at most two IEs, behind one with an unknown tag *)
Example C87_generic_example :
  let ies := [CLeaf (hd_multi 1 2 1) l_u16; CLeaf (hd_multi 2 2 1) l_u16] in
  first_error t8l8v [0] ies [(ti_of_tag 1, [0;5]); (ti_of_tag 7, []); (ti_of_tag 1, [0;6]); (ti_of_tag 1, [0;7])] Proper ENOTSUP
  /\ gtlvs_decode t8l8v false (Some ies) ([1;2;0;5; 7;0; 1;2;0;6; 1;2;0;7] ++ [0]) 14 = Err ENOTSUP
  /\ gtlvs_decode t8l8v false (Some ies) ([1;2;0;5; 7;0; 1;1;0; 1;2;0;7] ++ [0]) 13 = Err EINVAL
  /\ gtlvs_decode t8l8v false (Some ies) ([1;2;0;5; 7;0; 1;2;0;6; 1] ++ [0]) 11 = Err EBADMSG
  /\ gtlvs_decode t8l8v false (Some ies) ([1;2;0;5; 7;0; 1;2;0;6] ++ [0]) 10 = Err EINVAL.
Proof.
  cbv zeta. split; [|repeat split; vm_compute; reflexivity].
  apply (FE_surplus _ _ _ _ _ _ [(ti_of_tag 1, [0;5]); (ti_of_tag 7, []); (ti_of_tag 1, [0;6])] (ti_of_tag 1, [0;7]) [] (CLeaf (hd_multi 1 2 1) l_u16)).
  - reflexivity.
  - repeat constructor; try (vm_compute; discriminate); eexists; vm_compute; reflexivity.
  - left. reflexivity.
  - vm_compute. reflexivity.
  - vm_compute. reflexivity.
  - reflexivity.
Qed.

(* ---------------------------------------------------------------- C88 *)
(* osmo_pfcp_msg_decode_header(): any received data. [rest] is the memory behind it. *)
Theorem C88_header_error q rest e : bytes_ok q -> (decode_header (q ++ rest) (lenN q) = Err e <-> bad_header q /\ e = header_errno q).
Proof. exact (header_error q rest e). Qed.
Print Assumptions C88_header_error.
(* Partial: the header is as [header_of] says, which has the priority in the low four bits; TS 29.244 has it in the high four bits. *)
Theorem C88_header_fields_partial q rest d : bytes_ok q -> (decode_header (q ++ rest) (lenN q) = Ok d <->
  ~ bad_header q /\ dh_h d = header_of q /\ dh_len d = announced q /\ dh_ofs d = hdr_size_of q /\
  dh_tlv d = (announced q + 2 ^ 32 - hdr_size_of q) mod 2 ^ 32).
Proof. exact (header_read q rest d). Qed.
Print Assumptions C88_header_fields_partial.
(* the priority of a message that follows the specification is not read *)
Theorem C88_priority_refuted : exists q d, bytes_ok q /\ framed q /\ mp_bit q = true /\ decode_header q (lenN q) = Ok d /\
  hd_prio (dh_h d) <> Some (nth 15 q 0 / 16).
Proof.
  exists ([35; 50; 0; 12] ++ [0;0;0;0;0;0;0;9] ++ [0;0;5] ++ [112]), (mkDh (mkHdr 1 50 (Some 0) (Some 9) 5) 16 16 0).
  split; [vm_compute; repeat constructor|]. split; [split; [vm_compute; congruence|split; [vm_compute; reflexivity|vm_compute; congruence]]|].
  split; [vm_compute; reflexivity|]. split; [vm_compute; reflexivity|]. intros H. vm_compute in H. discriminate H.
Qed.
Print Assumptions C88_priority_refuted.
Example C88_example : header_of ([33; 50; 0; 12] ++ [0;0;0;0;0;0;1;9] ++ [0;1;5] ++ [0]) = mkHdr 1 50 None (Some 265) 261
  /\ header_of [32; 1; 0; 4; 0;0;5; 0] = mkHdr 1 1 None None 5 /\ bad_header [32; 1; 0; 5; 0;0;5; 0] /\ header_errno [32; 1; 0; 5; 0;0;5; 0] = EMSGSIZE
  /\ bad_header [33; 1; 0; 4; 0;0;5; 0] /\ header_errno [33; 1; 0; 4; 0;0;5; 0] = EINVAL.
Proof. repeat split; try (vm_compute; reflexivity); unfold bad_header; [right; right; left|right; left]; vm_compute; reflexivity. Qed.

(* ---------------------------------------------------------------- C89 *)
(* osmo_pfcp_dec_*(): what an IE value is decoded to, for every value *)
Theorem C89_ie_value k v rest x : (k = KActPredef -> In 0 rest) ->
  (dec_of k (v ++ rest) (lenN v) = Ok x <-> ie_accept k v /\ ie_reads k v x).
Proof. exact (ie_read_iff k v rest x). Qed.
Print Assumptions C89_ie_value.
(* osmo_pfcp_msg_decode_tlv(): what a message body is decoded to, for every body *)
Theorem C89_message_body t l d rest slots : In (t, l) s_messages -> bytes_ok d -> In 0 rest ->
  (decode_tlv t (d ++ rest) (lenN d) = Ok slots <-> body_reads l d slots).
Proof. exact (message_reads t l d rest slots). Qed.
Print Assumptions C89_message_body.
(* an F-SEID with both addresses; a name with two labels; a body with an unknown IE in front and the IEs in another order *)
Example C89_example :
  ie_reads KFSeid ([3] ++ [0;0;0;0;0;0;1;2] ++ [10;0;0;1] ++ repeat 7 16) (IvFseid (mkFseid 258 (mkAddrs true (Sa4 [10;0;0;1] 0) true (Sa6 (repeat 7 16) 0))))
  /\ ie_reads KNodeId [2; 2;97;98; 1;99] (IvNode (NodeFqdn [97;98;46;99]))
  /\ body_reads C87_l [1;0;0;0; 0;96;0;4;0;0;1;7; 0;19;0;1;1; 0;60;0;5;0;127;0;0;1]
       [[VLeaf (IvNode (NodeV4 (Sa4 [127;0;0;1] 0)))]; [VLeaf (IvNum 1)]; [VLeaf (IvNum 263)]; []; []].
Proof.
  split; [vm_compute; reflexivity|]. split.
  - exists [97;98;46;99]. split; [|reflexivity]. exists [97;98;46;99]. split.
    + exists [[97;98]; [99]], []. split; [reflexivity|]. split; [repeat constructor; discriminate|]. left. split; reflexivity.
    + split; [cbn [In]; intuition discriminate|left; reflexivity].
  - apply (message_reads 6 C87_l _ [0]); [cbn [In s_messages]; unfold C87_l; tauto|vm_compute; repeat constructor|left; reflexivity|vm_compute; reflexivity].
Qed.

(* ---------------------------------------------------------------- C90 *)
(* Reception: what becomes of one complete message, for every message *)
Theorem C90_message p o : framed p -> bytes_ok p -> (outcome p = o <-> message_means p o).
Proof. exact (message_means_iff p o). Qed.
Print Assumptions C90_message.
(* and of a datagram of complete messages, whichever they are, possibly with a bad header behind them: exactly this, no more and no less *)
Theorem C90_datagram ps q tail os : Forall framed ps -> Forall bytes_ok ps -> bytes_ok q -> lenN (concat ps ++ q) < alloc_size ->
  (q = [] /\ tail = [] \/ q <> [] /\ bad_header q /\ tail = [RxBad (header_errno q)]) ->
  (rx_datagram (concat ps ++ q) = os <-> exists l, Forall2 message_means ps l /\ os = l ++ tail).
Proof. exact (datagram_means ps q tail os). Qed.
Print Assumptions C90_datagram.
(* two heartbeat requests, the first without the mandatory time stamp; an unsupported type; and the beginning of another message *)
Definition C90_ps : list (list N) := [[32; 1; 0; 4; 0;0;1; 0]; [32; 1; 0; 12; 0;0;2; 0; 0;96;0;4;0;0;0;7]; [32; 99; 0; 4; 0;0;3; 0]].
Example C90_example : Forall framed C90_ps /\ Forall bytes_ok C90_ps /\ bad_header [32; 1; 0; 12; 0] /\
  Forall2 message_means C90_ps [RxDrop EINVAL; RxMsg (mkHdr 1 1 None None 2) [[VLeaf (IvNum 7)]]; RxDrop ENOTSUP] /\
  rx_datagram (concat C90_ps ++ [32; 1; 0; 12; 0]) = [RxDrop EINVAL; RxMsg (mkHdr 1 1 None None 2) [[VLeaf (IvNum 7)]]; RxDrop ENOTSUP; RxBad EINVAL].
Proof.
  assert (F : Forall framed C90_ps) by (repeat apply Forall_cons; try apply Forall_nil; (split; [vm_compute; congruence|split; [vm_compute; reflexivity|vm_compute; congruence]])).
  assert (B : Forall bytes_ok C90_ps) by (vm_compute; repeat constructor).
  assert (X : bad_header [32; 1; 0; 12; 0]) by (right; left; vm_compute; reflexivity).
  assert (E : rx_datagram (concat C90_ps ++ [32; 1; 0; 12; 0]) = [RxDrop EINVAL; RxMsg (mkHdr 1 1 None None 2) [[VLeaf (IvNum 7)]]; RxDrop ENOTSUP; RxBad EINVAL]) by (vm_compute; reflexivity).
  split; [exact F|]. split; [exact B|]. split; [exact X|]. split; [|exact E].
  repeat apply Forall2_cons; try apply Forall2_nil; (apply message_means_iff; [inversion F as [|a b F1 F2]; try exact F1; inversion F2 as [|a' b' F3 F4]; try exact F3; inversion F4; assumption
    |vm_compute; repeat constructor|vm_compute; reflexivity]).
Qed.

(* ---------------------------------------------------------------- C99 *)
(* C87_first_error for any table, in which several entries may have the same tag; and for decoding in table order *)
Theorem C99_ordered_error {V : Type} Tail c (ies : list (coding V)) d rest items en e :
  cfg_ok c -> tail_closed Tail -> Tail rest ->
  Forall (all_leaves (leaf_local Tail)) ies -> Forall (all_cfgs cfg_ok) ies -> maxes_pos ies ->
  reads c d items en ->
  (gtlvs_decode c true (Some ies) (d ++ rest) (lenN d) = Err e <-> fails_ordered c rest en e ies items).
Proof. exact (decode_ordered_error Tail c ies d rest items en e). Qed.
Theorem C99_unordered_error {V : Type} Tail c (ies : list (coding V)) d rest items en e :
  cfg_ok c -> tail_closed Tail -> Tail rest ->
  Forall (all_leaves (leaf_local Tail)) ies -> Forall (all_cfgs cfg_ok) ies -> maxes_pos ies -> small_table ies ->
  reads c d items en ->
  (gtlvs_decode c false (Some ies) (d ++ rest) (lenN d) = Err e <-> fails_unordered c rest ies items en e).
Proof. exact (decode_unordered_error Tail c ies d rest items en e). Qed.
Print Assumptions C99_ordered_error.
Print Assumptions C99_unordered_error.
(* tag 1: up to two, and later one; between them a mandatory one; tag 4 one or two *)
Definition C99_table : list (coding tv) := [CLeaf (hd_multi 1 2 0) l_u16; CLeaf (hd_m 3) l_u16; CLeaf (hd_o 1) l_u16; CLeaf (hd_multi 4 2 1) l_u16].
Notation i1 := (ti_of_tag 1, [0;5]) (only parsing). Notation i3 := (ti_of_tag 3, [0;9]) (only parsing). Notation i4 := (ti_of_tag 4, [0;7]) (only parsing).
Example C99_hypotheses : cfg_ok t8l8v /\ tail_closed AnyTail /\ maxes_pos C99_table /\ small_table C99_table /\
  Forall (all_leaves (leaf_local AnyTail)) C99_table /\ Forall (all_cfgs cfg_ok) C99_table /\ ~ distinct_tags C99_table.
Proof.
  split; [exact t8l8v_ok|]. split; [exact AnyTail_closed|]. split; [repeat constructor; vm_compute; discriminate|]. split; [vm_compute; discriminate|].
  split; [repeat constructor; apply l_u16_local|]. split; [repeat constructor|]. intros D. specialize (D 0%nat 2%nat _ _ ltac:(lia) eq_refl eq_refl). vm_compute in D. discriminate.
Qed.
Example C99_ordered_example :
  let fails d items en e := reads t8l8v d items en /\ fails_ordered t8l8v [] en e C99_table items in
  (* missing; searched for in vain in broken data; a value of one octet; broken after a run; more than both entries hold; a value in the later entry *)
  fails [1;2;0;5] [i1] Proper ENOENT
  /\ fails [1;2;0;5;9] [i1] (Broken EBADMSG None) EBADMSG
  /\ fails [1;2;0;5;1;1;0] [i1; (ti_of_tag 1, [0])] Proper EINVAL
  /\ fails [1;2;0;5;1;2;0] [i1] (Broken EBADMSG (Some (ti_of_tag 1))) EBADMSG
  /\ fails [4;2;0;7;3;2;0;9;4;2;0;7;4;2;0;7;4;2;0;7] [i4; i3; i4; i4; i4] Proper ENOTSUP
  /\ fails [1;2;0;5;1;2;0;5;1;1;0] [i1; i1; (ti_of_tag 1, [0])] Proper EINVAL.
Proof.
  destruct C99_hypotheses as (A & B & C & D & E & F & _).
  assert (K : forall d items en e, scanned t8l8v d = (items, en) -> gtlvs_decode t8l8v true (Some C99_table) (d ++ []) (lenN d) = Err e ->
    reads t8l8v d items en /\ fails_ordered t8l8v [] en e C99_table items).
  { intros d items en e H1 H2. apply (scanned_reads _ _ _ _ A) in H1. split; [exact H1|]. exact (proj1 (C99_ordered_error AnyTail t8l8v C99_table d [] items en e A B I E F C H1) H2). }
  cbv zeta. do 5 (split; [apply K; vm_compute; reflexivity|]). apply K; vm_compute; reflexivity.
Qed.
Example C99_unordered_example :
  let fails d items en e := reads t8l8v d items en /\ fails_unordered t8l8v [] C99_table items en e in
  fails [1;2;0;5;4;2;0;7] [i1; i4] Proper EINVAL
  /\ fails [3;2;0;9;4;2;0;7;9] [i3; i4] (Broken EBADMSG None) EBADMSG
  /\ fails [1;2;0;5;1;2;0;5;1;1;0] [i1; i1; (ti_of_tag 1, [0])] Proper EINVAL
  /\ fails [1;2;0;5;1;2;0;5;1;2;0;5;1;2;0;5;9] [i1; i1; i1; i1] (Broken EBADMSG None) ENOTSUP.
Proof.
  destruct C99_hypotheses as (A & B & C & D & E & F & _).
  assert (K : forall d items en e, scanned t8l8v d = (items, en) -> gtlvs_decode t8l8v false (Some C99_table) (d ++ []) (lenN d) = Err e ->
    reads t8l8v d items en /\ fails_unordered t8l8v [] C99_table items en e).
  { intros d items en e H1 H2. apply (scanned_reads _ _ _ _ A) in H1. split; [exact H1|]. exact (proj1 (C99_unordered_error AnyTail t8l8v C99_table d [] items en e A B I E F C D H1) H2). }
  cbv zeta. do 3 (split; [apply K; vm_compute; reflexivity|]). apply K; vm_compute; reflexivity.
Qed.
