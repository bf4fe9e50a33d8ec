(* PropertiesRelay.v -- forwarding received messages (C79). Proofs: RelayProofs.v *)
From Verif Require Import Base GtlvModel DecEncModel IesModel IesSpec TablesModel MsgModel MsgSpec RelaySpec RelayProofs.

(* ---------------------------------------------------------------- C79 *)
(* [p]: one PFCP message of less than 2048 octets, received in a datagram; [h], [ies]: the decoded message. It is a valid
   message in the sense of C24 (all values in range, admissible numbers of IEs, at every depth), but for names. *)
Theorem C79_received_is_valid p h ies : framed p -> bytes_ok p -> lenN p < 2048 -> rx_datagram p = [RxMsg h ies] ->
  valid_hdr h /\ exists tab, get_msg_coding (hd_type h) = Some tab /\ (all_names_ok tab ies -> valid_struct tab ies).
Proof. exact (received_valid p h ies). Qed.
Print Assumptions C79_received_is_valid.
(* If the names in it are valid, it can be sent on: encoding the decoded message in the standard 2048 octet msgb succeeds, and who
   receives the result decodes the same message. For Session Establishment Requests (50) and Session Modification Requests (52)
   this is shown if the message and one octet more for each Apply Action in it are together less than 2048 octets. *)
Theorem C79_relay_partial p h ies tab : framed p -> bytes_ok p -> lenN p < 2048 -> rx_datagram p = [RxMsg h ies] ->
  get_msg_coding (hd_type h) = Some tab -> all_names_ok tab ies -> (hd_type h = 50 \/ hd_type h = 52 -> lenN p + all_actions tab ies < 2048) ->
  exists m, msg_encode (msgb_new 2048) h ies = MOk m /\ rx_datagram (mb_buf m) = [RxMsg h ies].
Proof. exact (relay p h ies tab). Qed.
Print Assumptions C79_relay_partial.
(* There are at most 32 and 64 Apply Actions, so every such message of at most 2015 and 1983 octets can be sent on. *)
Theorem C79_relay_size_partial p h ies tab : framed p -> bytes_ok p -> lenN p < 2048 -> rx_datagram p = [RxMsg h ies] ->
  get_msg_coding (hd_type h) = Some tab -> all_names_ok tab ies -> (hd_type h = 50 -> lenN p <= 2015) -> (hd_type h = 52 -> lenN p <= 1983) ->
  exists m, msg_encode (msgb_new 2048) h ies = MOk m /\ rx_datagram (mb_buf m) = [RxMsg h ies].
Proof. exact (relay_size p h ies tab). Qed.
Print Assumptions C79_relay_size_partial.
(* Not so for names with a '.' in a label: a Node ID with the single label "." arrives as the empty name. *)
Definition C79_name : list N := [32; 9; 0; 11; 0; 0; 1; 0; 0; 60; 0; 3; 2; 1; 46].
Theorem C79_names_refuted : exists p h ies m ies', framed p /\ bytes_ok p /\ rx_datagram p = [RxMsg h ies]
  /\ msg_encode (msgb_new 2048) h ies = MOk m /\ rx_datagram (mb_buf m) = [RxMsg h ies'] /\ ies' <> ies.
Proof.
  exists C79_name. eexists _, _, _, _. split; [repeat split; try discriminate; vm_compute; discriminate|]. split; [repeat constructor|].
  split; [vm_compute; reflexivity|]. split; [vm_compute; reflexivity|]. split; [vm_compute; reflexivity|]. discriminate.
Qed.
Print Assumptions C79_names_refuted.
(* And not for every message of two octets more: this Session Establishment Request has 32 Create FAR, this Session Modification
   Request 32 Create FAR and 32 Update FAR IEs, each with an Apply Action of one octet, which is encoded as two octets. The messages are
   2017 and 1985 octets long, encoding them again takes 2049 octets and aborts the process. (One octet less, and the result is 2048 octets
   long: it is encoded, but fills the buffer of who receives it, where C79_received_is_valid does not apply.) *)
Definition C79_far (grp forw n : N) (params : list N) : list N :=
  [0; grp; 0; 17 + lenN params; 0; 108; 0; 4; 0; 0; 0; n; 0; 44; 0; 1; 2; 0; forw; 0; lenN params] ++ params.
Definition C79_fars (grp forw : N) (params : list N) : list N := flat_map (fun n => C79_far grp forw (N.of_nat n) params) (seq 1 32).
Definition C79_removes (grp iei width : N) (k : nat) : list N :=
  flat_map (fun n => [0; grp; 0; 4 + width; 0; iei; 0; width] ++ be_put (N.to_nat width) (N.of_nat n)) (seq 1 k).
Definition C79_mod : list N := [33; 52; 7; 189; 0; 0; 0; 0; 0; 0; 0; 7; 0; 0; 1; 0]
  ++ [0; 57; 0; 13; 2; 0; 0; 0; 0; 0; 0; 0; 1; 127; 0; 0; 1] ++ C79_removes 15 56 2 24 ++ C79_removes 16 108 4 4 ++ C79_fars 3 4 [0; 42; 0; 1; 0] ++ C79_fars 10 11 [0; 42; 0; 1; 0].
Definition C79_pdr (n : N) (more : list N) : list N :=
  [0; 1; 0; 23 + lenN more; 0; 56; 0; 2; 0; n; 0; 29; 0; 4; 0; 0; 0; n; 0; 2; 0; 5; 0; 20; 0; 1; 0] ++ more.
Definition C79_est : list N := [33; 50; 7; 221; 0; 0; 0; 0; 0; 0; 0; 7; 0; 0; 1; 0] ++ [0; 60; 0; 5; 0; 127; 0; 0; 1]
  ++ flat_map (fun n => C79_pdr (N.of_nat n) (if Nat.leb n 4 then [0; 108; 0; 4; 0; 0; 0; N.of_nat n] else if Nat.leb n 9 then [0; 95; 0; 1; 0] else [])) (seq 1 29)
  ++ C79_fars 3 4 [0; 42; 0; 1; 0; 0; 131; 0; 1; 0; 0; 160; 0; 1; 0].
Definition C79_aborts (t n : N) : Prop := exists p h ies tab, framed p /\ bytes_ok p /\ lenN p = n /\ rx_datagram p = [RxMsg h ies]
  /\ hd_type h = t /\ get_msg_coding t = Some tab /\ all_names_ok tab ies /\ msg_encode (msgb_new 2048) h ies = MUB MsgbAbort.
Theorem C79_size_refuted : C79_aborts 50 2017 /\ C79_aborts 52 1985.
Proof.
  split; [exists C79_est|exists C79_mod]; (eexists _, _, _; split; [repeat split; try discriminate; vm_compute; discriminate|];
    split; [apply bytes_okb; vm_compute; reflexivity|]; split; [vm_compute; reflexivity|]; split; [vm_compute; reflexivity|];
    split; [reflexivity|]; split; [reflexivity|]; split; [|vm_compute; reflexivity]; apply names_okb; vm_compute; reflexivity).
Qed.
Print Assumptions C79_size_refuted.
(* an Association Setup Request with an IE this implementation does not know *)
Definition C79_req : list N := [32; 5; 0; 31; 0; 0; 1; 0;  0; 60; 0; 5; 0; 127; 0; 0; 1;  39; 15; 0; 2; 7; 7;  0; 96; 0; 4; 1; 2; 3; 4;  0; 43; 0; 0].
Definition C79_ies : list (slot iev) := [[VLeaf (IvNode (NodeV4 (Sa4 [127; 0; 0; 1] 0)))]; [VLeaf (IvNum 16909060)]; [VLeaf (IvBits [0; 0; 0; 0; 0; 0])]; []].
Example C79_example : framed C79_req /\ bytes_ok C79_req /\ rx_datagram C79_req = [RxMsg (mkHdr 1 5 None None 1) C79_ies]
  /\ all_names_ok ies_assoc_setup_req C79_ies
  /\ exists m, msg_encode (msgb_new 2048) (mkHdr 1 5 None None 1) C79_ies = MOk m
       /\ mb_buf m = [32; 5; 0; 31; 0; 0; 1; 0;  0; 60; 0; 5; 0; 127; 0; 0; 1;  0; 96; 0; 4; 1; 2; 3; 4;  0; 43; 0; 6; 0; 0; 0; 0; 0; 0].
Proof.
  split; [repeat split; try discriminate; vm_compute; discriminate|]. split; [repeat constructor|]. split; [vm_compute; reflexivity|].
  split; [apply names_okb; vm_compute; reflexivity|]. eexists. split; vm_compute; reflexivity.
Qed.
(* a Session Modification Request of this kind that can be sent on: 1981 octets become 2045 *)
Definition C79_fit : list N := [33; 52; 7; 185; 0; 0; 0; 0; 0; 0; 0; 7; 0; 0; 1; 0]
  ++ [0; 57; 0; 13; 2; 0; 0; 0; 0; 0; 0; 0; 1; 127; 0; 0; 1] ++ C79_removes 15 56 2 20 ++ C79_removes 16 108 4 7 ++ C79_fars 3 4 [0; 42; 0; 1; 0] ++ C79_fars 10 11 [0; 42; 0; 1; 0].
Example C79_example_mod : framed C79_fit /\ bytes_ok C79_fit /\ exists h ies, rx_datagram C79_fit = [RxMsg h ies] /\ hd_type h = 52
  /\ all_names_ok ies_session_mod_req ies /\ lenN C79_fit + all_actions ies_session_mod_req ies = 2045
  /\ exists m, msg_encode (msgb_new 2048) h ies = MOk m /\ lenN (mb_buf m) = 2045.
Proof.
  split; [repeat split; try discriminate; vm_compute; discriminate|]. split; [apply bytes_okb; vm_compute; reflexivity|].
  eexists _, _. split; [vm_compute; reflexivity|]. split; [reflexivity|]. split; [apply names_okb; vm_compute; reflexivity|].
  split; [vm_compute; reflexivity|]. eexists. split; vm_compute; reflexivity.
Qed.
