(* PropertiesErr.v -- the error callback of struct decoding / encoding (C77, C78). Model: ErrModel.v, specification: ErrSpec.v *)
From Verif Require Import Base GtlvModel GtlvSpec DecEncModel DecEncSpec TestTables GtlvInst IesModel TablesModel MsgModel ErrModel ErrSpec ErrProofs.

(* ---------------------------------------------------------------- C77 *)
(* The model with the calls of err_cb() returns what the model without them returns. *)
Theorem C77_results_unchanged V c o (ies : option (list (coding V))) m n cap buf slots :
  fst (gtlvs_decode_r c o ies m n) = gtlvs_decode c o ies m n /\ fst (gtlvs_encode_r c cap ies buf slots) = gtlvs_encode c cap ies buf slots.
Proof. exact (conj (decode_erase c o ies m n) (encode_erase c cap ies buf slots)). Qed.
Print Assumptions C77_results_unchanged.
(* Decoding, any table, format and bytes: a call that does not fail makes no report. When it fails with [e], every report carries
   the code [e] that is returned, and the tags, outermost first (the reports come innermost first), are the IEs around a place where
   decoding these bytes with this table fails with [e] (ErrSpec.dec_fails). Unordered decoding reports at least once (C78). *)
Theorem C77_decode_reports V c o (ies : list (coding V)) m n : let '(r, L) := gtlvs_decode_r c o (Some ies) m n in
  match r with
  | Err e => Forall (fun x => snd x = e) L /\ dec_fails ies c o m n e (rev (map fst L)) /\ (o = false -> L <> [])
  | _ => L = []
  end.
Proof. exact (decode_result ies c o m n). Qed.
Print Assumptions C77_decode_reports.
(* The same for encoding, which always reports its errors. *)
Theorem C77_encode_reports V c cap (ies : list (coding V)) buf slots : let '(r, L) := gtlvs_encode_r c cap (Some ies) buf slots in
  match r with
  | EErr _ e => Forall (fun x => snd x = e) L /\ enc_fails ies slots e (rev (map fst L)) /\ L <> []
  | _ => L = []
  end.
Proof. exact (encode_result ies c cap buf slots). Qed.
Print Assumptions C77_encode_reports.
(* A missing mandatory IE: exactly one report, naming the first entry of the table that is missing. *)
Theorem C77_missing_mandatory V Tail c (ies pre post : list (coding V)) x d items slots rest :
  cfg_ok c -> tail_closed Tail -> Tail rest ->
  Forall (all_leaves (leaf_local Tail)) ies -> Forall (all_cfgs cfg_ok) ies ->
  distinct_tags ies -> maxes_pos ies -> small_table ies ->
  parse c d (lenN d) = Ok items ->
  Forall2 (fun d s => lenN s <= cap_of (head d) /\
     Forall2 (fun it v => dec_coding d c false (snd it ++ rest) (lenN (snd it)) = Ok v) (items_for d items) s) ies slots ->
  ies = pre ++ x :: post -> Forall (fun d => low_of (head d) <= lenN (items_for d items)) pre -> lenN (items_for x items) < low_of (head x) ->
  gtlvs_decode_r c false (Some ies) (d ++ rest) (lenN d) = (Err EINVAL, [(h_ti (head x), EINVAL)]).
Proof. exact (missing_reported Tail c ies pre post x d items slots rest). Qed.
Print Assumptions C77_missing_mandatory.
(* ---------------------------------------------------------------- C78 *)
(* PFCP messages of the supported types: osmo_pfcp_msg_err_cb() is called for every error of osmo_pfcp_msg_decode_tlv() and of the
   encoder, and never without an error. *)
Theorem C78_pfcp_partial t ies m n cap buf slots : msg_table t = Some ies ->
  (let '(r, L) := gtlvs_decode_r t16l16v false (msg_table t) m n in
     r = decode_tlv t m n /\ (L <> [] <-> exists e, r = Err e) /\ forall x, In x L -> r = Err (snd x))
  /\ (let '(r, L) := gtlvs_encode_r t16l16v cap (msg_table t) buf slots in
     r = encode_tlv cap buf t slots /\ (L <> [] <-> exists b e, r = EErr b e) /\ forall x, In x L -> exists b, r = EErr b (snd x)).
Proof. exact (pfcp_reports t ies m n cap buf slots). Qed.
Print Assumptions C78_pfcp_partial.

(* ordered decoding can fail without any report: a repeated IE followed by a truncated one *)
Theorem C78_ordered_refuted : exists (ies : list (coding tv)) m e, gtlvs_decode_r t8l8v true (Some ies) m (lenN m) = (Err e, []).
Proof. exists [CLeaf (hd_multi 3 4 1) l_u16], [3;2;0;8;3;2;0], EBADMSG. vm_compute. reflexivity. Qed.
Print Assumptions C78_ordered_refuted.
(* so can decoding and encoding a message of a type without table *)
Theorem C78_unknown_type_refuted : exists t m cap buf slots, msg_table t = None
  /\ gtlvs_decode_r t16l16v false (msg_table t) m (lenN m) = (Err ENOTSUP, []) /\ gtlvs_encode_r t16l16v cap (msg_table t) buf slots = (EErr buf ENOTSUP, []).
Proof. exists 12, [], 100, [], []. vm_compute. split; [reflexivity|split; reflexivity]. Qed.
Print Assumptions C78_unknown_type_refuted.

(* ---------------------------------------------------------------- examples *)
(* success; a bad IE inside of a nested one; IE missing; broken structure; IE 1 twice; the same, ordered *)
Example C77_decode_examples :
  gtlvs_decode_r t8l8v false (Some ex_table) ex_bytes (lenN ex_bytes) = (Ok ex_struct, [])
  /\ gtlvs_decode_r t8l8v false (Some ex_table) [1;2;0;7;3;2;0;8;4;3;1;1;9] 13 = (Err EINVAL, [(ti_of_tag 1, EINVAL); (ti_of_tag 4, EINVAL)])
  /\ gtlvs_decode_r t8l8v false (Some ex_table) [1;2;0;7] 4 = (Err EINVAL, [(ti_of_tag 3, EINVAL)])
  /\ gtlvs_decode_r t8l8v false (Some ex_table) [1;2;0;7;3;2;0] 7 = (Err EBADMSG, [(ti_of_tag 3, EBADMSG)])
  /\ gtlvs_decode_r t8l8v false (Some ex_table) [1;2;0;7;1;2;0;7] 8 = (Err ENOTSUP, [(ti_of_tag 1, ENOTSUP)])
  /\ gtlvs_decode_r t8l8v true (Some ex_table) [1;2;0;7;3;2;0;8;4;3;1;1;9] 13 = (Err EINVAL, [(ti_of_tag 1, EINVAL); (ti_of_tag 4, EINVAL)])
  /\ gtlvs_decode_r t8l8v true (Some ex_table) [1;2;0;7] 4 = (Err ENOENT, [(ti_of_tag 3, ENOENT)]).
Proof. vm_compute. repeat split; reflexivity. Qed.
(* a value that cannot be encoded inside of a nested IE; five values of IE 3, which holds four *)
Example C77_encode_examples :
  snd (gtlvs_encode_r t8l8v 64 (Some ex_table) [] ex_struct) = []
  /\ snd (gtlvs_encode_r t8l8v 64 (Some ex_table) [] [[VLeaf (TInt 7)]; []; [VLeaf (TInt 8)]; [VStruct [[VLeaf (TInt 40000)]; [VLeaf (TInt 11)]]]])
     = [(ti_of_tag 1, EINVAL); (ti_of_tag 4, EINVAL)]
  /\ snd (gtlvs_encode_r t8l8v 64 (Some ex_table) [] [[VLeaf (TInt 7)]; []; repeat (VLeaf (TInt 8)) 5; []]) = [(ti_of_tag 3, ENOTSUP)].
Proof. vm_compute. repeat split; reflexivity. Qed.
(* the hypotheses of C77_missing_mandatory are met by [1;2;0;7] and the entry of IE 3 *)
Example C77_missing_example : cfg_ok t8l8v /\ tail_closed AnyTail /\ Forall (all_leaves (leaf_local AnyTail)) ex_table
  /\ Forall (all_cfgs cfg_ok) ex_table /\ table_ok ex_table
  /\ parse t8l8v [1;2;0;7] 4 = Ok [(ti_of_tag 1, [0;7])]
  /\ Forall2 (fun d s => lenN s <= cap_of (head d) /\
       Forall2 (fun it v => dec_coding d t8l8v false (snd it ++ []) (lenN (snd it)) = Ok v) (items_for d [(ti_of_tag 1, [0;7])]) s) ex_table [[VLeaf (TInt 7)]; []; []; []]
  /\ exists pre x post, ex_table = pre ++ x :: post /\ Forall (fun d => low_of (head d) <= lenN (items_for d [(ti_of_tag 1, [0;7])])) pre
     /\ lenN (items_for x [(ti_of_tag 1, [0;7])]) < low_of (head x) /\ h_ti (head x) = ti_of_tag 3.
Proof. exact missing_example. Qed.
(* a Heartbeat Request without Recovery Time Stamp *)
Example C78_pfcp_example : gtlvs_decode_r t16l16v false (msg_table 1) [] 0 = (Err EINVAL, [(ti_of_tag 96, EINVAL)]).
Proof. vm_compute. reflexivity. Qed.
