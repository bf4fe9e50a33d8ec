(* PropertiesGen.v -- the generator gtlv_gen.c (C62-C65) and the tables it makes for PFCP (C66-C68). Specification: GenSpec.v (what the
   definitions mean), MemSpec.v (what the bytes of a struct mean); proofs: GenTabProofs.v, GenCompile.v, GenConflict.v, GenFinal.v,
   GenPfcpProofs.v, PfcpMemFinal.v.

   ms: the definitions; cfg: the generator's configuration; te0, ce: types and constants of the user's headers; r: what the compiler
   makes of the generated files; la, lk, ls, ld: the functions of leaf IEs as in PropertiesMem.v; be: byte order of the host. *)
From Coq Require Import String Ascii.
From Verif Require Import Base BaseProofs GtlvModel GtlvSpec DecEncModel DecEncSpec CStr IesModel IesSpec TablesModel MsgModel MsgSpec StrModel StrSpec MemModel MemSpec
  MemTest GenModel GenSpec GenProofs GenTabProofs GenCompile GenConflict GenFinal GenPfcp GenPfcpProofs PfcpMem PfcpMemProofs PfcpMemFinal GenTest PropertiesStr.
Local Open Scope string_scope.
Local Open Scope N_scope.
Local Open Scope list_scope.

(* what C62 and C63 ask of the definitions and of the user's headers *)
Definition sound_defs (cfg : gcfg) (te0 : tenv) (ce : string -> option N) (lk : fns -> mleaf) (ms : list gmsg) (r : generated) : Prop :=
  gen_and_compile cfg te0 ce ms = Some r /\ ids_faithful ms /\ types_consistent cfg ms /\ names_short cfg ms /\ groups_nonempty ms
  /\ base_types_ok te0 /\ leaf_types_ok cfg ms (gr_types r) lk.
(* message m of the definitions has type t, and no later message has the same type *)
Definition is_message (cfg : gcfg) (ce : string -> option N) (ms : list gmsg) (m : gmsg) (t : N) : Prop :=
  exists pre post, ms = pre ++ m :: post /\ msgt_of cfg ce m = Some t /\ Forall (fun x => msgt_of cfg ce x <> Some t) post.

(* ---------------------------------------------------------------- C62 *)
(* For any definitions: the generated coding table of a message has, IE by IE and at every depth, the tag, instance, presence flag,
   numbers of occurrences and functions of the definitions; its offsets are those of the generated members that are named after
   the IEs; members, flags and counts lie in the generated union and do not overlap. *)
Theorem C62_tables_mean_definitions {V} cfg te0 ce (la : fns -> leaf V) lk ms r m t :
  sound_defs cfg te0 ce lk ms r -> is_message cfg ce ms m t ->
  exists ies, defs_get (gr_defs r) t = Some ies
  /\ means_list cfg ce la (snd m) = Some (map (erase la) ies)
  /\ Forall2 (placed cfg (gr_types r) (msg_struct cfg (fst m))) (snd m) ies
  /\ (0 < gen_union_size cfg r -> layout_ok lk (gen_union_size cfg r) ies) /\ (snd m <> [] -> 0 < gen_union_size cfg r).
Proof.
  intros (H1 & H2 & H3 & H4 & H5 & H6 & H7) (pre & post & P1 & P2 & P3). exact (gen_lookup cfg te0 ce la lk ms r H1 H2 H3 H4 H5 H6 H7 pre m post t P1 P2 P3).
Qed.
(* Message types without a definition have no table. *)
Theorem C62_other_types cfg te0 ce lk ms r t : sound_defs cfg te0 ce lk ms r ->
  Forall (fun x => msgt_of cfg ce x <> Some t) ms -> defs_get (gr_defs r) t = None.
Proof. intros (H1 & H2 & H3 & H4 & H5 & H6 & H7). exact (gen_lookup_none cfg te0 ce (fun _ : fns => mkLeaf (V := unit) None None) lk ms r H1 H2 H3 H4 H5 H6 H7 t). Qed.
(* Tags and message types are the constants whose names are the prefix and the IE's respectively message's name in upper case. *)
Theorem C62_constant_names s : toupper s = upcase 127 s.
Proof. exact (toupper_upcase s). Qed.
Example C62_constant_example : toupper "pfcp_iei_3" = "PFCP_IEI_3".
Proof. reflexivity. Qed.
Print Assumptions C62_constant_names.
(* The type of a struct member. *)
Theorem C62_type_names cfg i : dtype cfg i = type_name (gc_dtp cfg) i.
Proof. exact (dtype_type_name cfg i). Qed.
Print Assumptions C62_type_names.
Print Assumptions C62_tables_mean_definitions.
Print Assumptions C62_other_types.

Lemma g_sound be : sound_defs g_cfg p_te0 g_ce (g_lk be) g_ok (g_gen g_ok).
Proof. exact (conj g_accepted (conj g_ids (conj g_types (conj g_short (conj g_nonempty (conj g_base (g_leaf be))))))). Qed.
Lemma g_bar : is_message g_cfg g_ce g_ok ("bar", [GIe (mkGMod "a" false 4 1 None) g_in (Some [g_x false 3 1; g_y true 0 0])]) 9.
Proof. exists [("foo", [g_x false 0 0; g_y true 0 0; GIe (mkGMod "a" true 0 0 None) g_in (Some [g_x false 3 1; g_y true 0 0])])], []. repeat split; constructor. Qed.
Example C62_example be : sound_defs g_cfg p_te0 g_ce (g_lk be) g_ok (g_gen g_ok)
  /\ is_message g_cfg g_ce g_ok ("bar", [GIe (mkGMod "a" false 4 1 None) g_in (Some [g_x false 3 1; g_y true 0 0])]) 9
  /\ (exists h h1 h2 k1 k2, defs_get (gr_defs (g_gen g_ok)) 9 = Some [MNest h 16 None OrdSame [MLeaf h1 k1; MLeaf h2 k2]]
      /\ h_multi (mh_h h) = Some (4, 1) /\ mh_ofs h = 0 /\ mh_pitch h = 16 /\ mh_cofs h = 64 /\ mh_ofs h1 = 0 /\ mh_cofs h1 = 8 /\ mh_pofs h2 = 12 /\ mh_ofs h2 = 14)
  /\ gen_union_size g_cfg (g_gen g_ok) = 68 /\ defs_get (gr_defs (g_gen g_ok)) 8 = None.
Proof.
  split; [exact (g_sound be)|]. split; [exact g_bar|]. split; [|split; vm_compute; reflexivity].
  do 5 eexists. split; [vm_compute; reflexivity|]. repeat split; reflexivity.
Qed.

(* ---------------------------------------------------------------- C63 *)
(* The generated _ies_decode() on a zeroed union, _ies_encode() and _ies_encode_to_str(): they do what osmo_gtlvs_decode() etc. do for
   the table that the definitions mean; the values are found in the members that are named after the IEs; no byte outside of
   the union changes. *)
Theorem C63_generated_decode {V} cfg te0 ce (la : fns -> leaf V) lk ld be ms r m t tab c o bs len dm :
  sound_defs cfg te0 ce lk ms r -> is_message cfg ce ms m t -> 0 < gen_union_size cfg r -> means_list cfg ce la (snd m) = Some tab ->
  gen_union_size cfg r < 2 ^ 32 -> (forall k, dec_ok lk la ld k) -> bytes_ok bs -> lenN dm = gen_union_size cfg r -> Forall (fun b => b = 0) dm ->
  match gtlvs_decode c o (Some tab) bs len with
  | Ok slots => exists dm' ies, gen_ies_decode cfg r lk be c o t bs len dm = (dm', Ok tt) /\ lenN dm' = gen_union_size cfg r
      /\ defs_get (gr_defs r) t = Some ies /\ Forall2 (placed cfg (gr_types r) (msg_struct cfg (fst m))) (snd m) ies /\ struct_held lk ld be false ies 0 dm' slots
  | Err e => exists dm', gen_ies_decode cfg r lk be c o t bs len dm = (dm', Err e) /\ lenN dm' = gen_union_size cfg r
  | UB _ => True
  end.
Proof.
  intros (H1 & H2 & H3 & H4 & H5 & H6 & H7) (pre & post & P1 & P2 & P3).
  exact (gen_decode_mem cfg te0 ce la lk ms r H1 H2 H3 H4 H5 H6 H7 ld be pre m post t tab c o bs len dm P1 P2 P3).
Qed.
Theorem C63_generated_encode {V} cfg te0 ce (la : fns -> leaf V) lk ld be ms r m t tab ies c cap buf slots dm :
  sound_defs cfg te0 ce lk ms r -> is_message cfg ce ms m t -> 0 < gen_union_size cfg r -> means_list cfg ce la (snd m) = Some tab ->
  defs_get (gr_defs r) t = Some ies -> gen_union_size cfg r < 2 ^ 32 -> (forall k, enc_ok lk la ld k) ->
  lenN dm = gen_union_size cfg r -> struct_held lk ld be true ies 0 dm slots ->
  gen_ies_encode cfg r lk be dm t c cap buf = gtlvs_encode c cap (Some tab) buf slots.
Proof.
  intros (H1 & H2 & H3 & H4 & H5 & H6 & H7) (pre & post & P1 & P2 & P3).
  exact (gen_encode_mem cfg te0 ce la lk ms r H1 H2 H3 H4 H5 H6 H7 ld be pre m post t tab c cap buf dm slots ies P1 P2 P3).
Qed.
Theorem C63_generated_print {V} cfg te0 ce (la : fns -> leaf V) lk (ls : fns -> option (V -> strfn)) ld be ms r m t ies names slots dm b n :
  sound_defs cfg te0 ce lk ms r -> is_message cfg ce ms m t -> 0 < gen_union_size cfg r ->
  defs_get (gr_defs r) t = Some ies -> gen_union_size cfg r < 2 ^ 32 -> (forall k, str_ok lk ls ld k) ->
  lenN dm = gen_union_size cfg r -> struct_held lk ld be true ies 0 dm slots ->
  gen_ies_to_str cfg r lk be dm t names b n = gtlvs_to_str ls names (Some (map erase_str ies)) slots b n.
Proof.
  intros (H1 & H2 & H3 & H4 & H5 & H6 & H7) (pre & post & P1 & P2 & P3).
  exact (gen_print_mem cfg te0 ce la lk ms r H1 H2 H3 H4 H5 H6 H7 ls ld be pre m post t names b n dm slots ies P1 P2 P3).
Qed.
Print Assumptions C63_generated_decode.
Print Assumptions C63_generated_encode.
Print Assumptions C63_generated_print.

Definition g_bar_wire : list N := [0; 3; 0; 12; 0; 1; 0; 2; 0; 7; 0; 1; 0; 2; 0; 8; 0; 3; 0; 12; 0; 1; 0; 2; 0; 9; 0; 2; 0; 2; 0; 10].
Example C63_example be : sound_defs g_cfg p_te0 g_ce (g_lk be) g_ok (g_gen g_ok)
  /\ (forall k, dec_ok (g_lk be) g_la (fun _ => cd_get (p_codec be K16)) k) /\ (forall k, enc_ok (g_lk be) g_la (fun _ => cd_get (p_codec be K16)) k)
  /\ (exists tab, means_list g_cfg g_ce g_la [GIe (mkGMod "a" false 4 1 None) g_in (Some [g_x false 3 1; g_y true 0 0])] = Some tab
      /\ gtlvs_decode t16l16v false (Some tab) (g_bar_wire ++ [0]) (lenN g_bar_wire)
         = Ok [[VStruct [[VLeaf (IvNum 7); VLeaf (IvNum 8)]; []]; VStruct [[VLeaf (IvNum 9)]; [VLeaf (IvNum 10)]]]])
  /\ (exists dm', gen_ies_decode g_cfg (g_gen g_ok) (g_lk be) be t16l16v false 9 (g_bar_wire ++ [0]) (lenN g_bar_wire) (repeat 0 68) = (dm', Ok tt)
      /\ gen_ies_encode g_cfg (g_gen g_ok) (g_lk be) be dm' 9 t16l16v 100 [] = EOk g_bar_wire).
Proof.
  split; [exact (g_sound be)|]. split; [intros k; exact (of_codec_dec g_la (fun _ => None) (fun _ => p_codec be K16) k (p_codec_ok be K16))|].
  split; [intros k; exact (of_codec_enc g_la (fun _ => None) (fun _ => p_codec be K16) k)|]. split.
  - eexists. split; [reflexivity|vm_compute; reflexivity].
  - destruct be; eexists; split; vm_compute; reflexivity.
Qed.

(* ---------------------------------------------------------------- C64 *)
(* Definitions where every name means one thing are accepted by the generator and by the compiler. *)
Theorem C64_well_named_accepted cfg te0 ce ms : well_named cfg te0 ce ms -> (forall T ty, te0 T = Some ty -> 0 < ty_align ty) ->
  exists r, gen_and_compile cfg te0 ce ms = Some r.
Proof. exact (gen_compiles cfg te0 ce ms). Qed.
Print Assumptions C64_well_named_accepted.
Example C64_example : well_named g_cfg p_te0 g_ce g_ok /\ (forall T ty, p_te0 T = Some ty -> 0 < ty_align ty).
Proof. split; [exact g_named|exact (proj2 (proj2 g_base))]. Qed.

(* ---------------------------------------------------------------- C65 *)
(* "Conflicting definitions are rejected": one name for two groups by the generator, two messages of the same name or two
   members of the same name, counts and presence flags included, by the compiler ... *)
Theorem C65_conflicts_rejected_partial cfg te0 ce ms r : gen_and_compile cfg te0 ce ms = Some r ->
  (forall i j, names_short cfg ms -> In i (all_ies ms) -> In j (all_ies ms) -> gn i <> None -> gn j <> None -> tag_of i = tag_of j -> g_id (gd i) = g_id (gd j))
  /\ NoDup (map fst ms)
  /\ (types_consistent cfg ms -> names_short cfg ms -> (forall T ty, te0 T = Some ty -> 0 < ty_align ty) ->
      (forall i ies, In i (all_ies ms) -> gn i = Some ies -> NoDup (map mb_name (members cfg ies)))
      /\ Forall (fun m => NoDup (map mb_name (members cfg (snd m)))) ms).
Proof.
  intros H. unfold gen_and_compile in H. ob H hs Hh. ob H cs Hcs. ob H te Hte. split; [|split].
  - intros i j HS. exact (tags_checked cfg ms HS cs Hcs i j).
  - exact (messages_distinct cfg te0 ms hs te Hh Hte).
  - intros HC HS HA. exact (members_distinct cfg ms te0 hs te HC HS HA Hh Hte).
Qed.
(* ... but two groups with the same decoded_type and different members are not: the union has the members of the first group only, and
   there is a message from a peer that the definitions allow, for which the generated decoder fails its assertion. *)
Theorem C65_same_type_refuted : exists cfg te0 ce lk la ms r t tab wire slots,
  gen_and_compile cfg te0 ce ms = Some r /\ ids_faithful ms /\ names_short cfg ms /\ groups_nonempty ms /\ base_types_ok te0
  /\ leaf_types_ok cfg ms (gr_types r) lk /\ (exists m, ms = [m] /\ msgt_of cfg ce m = Some t /\ means_list cfg ce la (snd m) = Some tab)
  /\ (forall k, exists ld : fns -> list N -> iev, dec_ok lk la ld k)
  /\ gtlvs_decode t16l16v false (Some tab) (wire ++ [0]) (lenN wire) = Ok slots
  /\ snd (gen_ies_decode cfg r lk false t16l16v false t (wire ++ [0]) (lenN wire) (repeat 0 (N.to_nat (gen_union_size cfg r)))) = UB AssertFail.
Proof.
  exists g_cfg, p_te0, g_ce, (g_lk false), g_la, g_same_type, (g_gen g_same_type), 7.
  eexists. exists g_wire. eexists.
  split. { unfold g_gen. destruct (gen_and_compile g_cfg p_te0 g_ce g_same_type) eqn:E; [reflexivity|]. exfalso. revert E. vm_compute. discriminate. }
  split. { intros i j Hi Hj E. cbn in Hi, Hj. intuition (subst; try discriminate E; split; reflexivity). }
  split. { intros i Hi _. cbn in Hi. intuition (subst; vm_compute; repeat constructor). }
  split. { intros i Hi. cbn in Hi. intuition (subst; discriminate). }
  split; [exact g_base|].
  split. { intros i ty Hi En H. cbn in Hi. intuition (subst; try discriminate En; vm_compute in H; injection H as <-; split; reflexivity). }
  split. { eexists. split; [reflexivity|]. split; [reflexivity|reflexivity]. }
  split. { intros k. exists (fun _ => cd_get (p_codec false K16)). exact (of_codec_dec g_la (fun _ => None) (fun _ => p_codec false K16) k (p_codec_ok false K16)). }
  split; vm_compute; reflexivity.
Qed.
(* Nor are two messages whose names differ in case only, if their structs differ: they have the same message type, and only the
   table of the second is used. *)
Theorem C65_same_message_type_refuted : exists cfg te0 ce ms r m1 m2 t, ms = [m1; m2] /\ gen_and_compile cfg te0 ce ms = Some r /\ fst m1 <> fst m2
  /\ snd m1 <> snd m2 /\ msgt_of cfg ce m1 = Some t /\ msgt_of cfg ce m2 = Some t
  /\ option_map (map (erase g_la)) (defs_get (gr_defs r) t) <> means_list cfg ce g_la (snd m1).
Proof.
  exists g_cfg, p_te0, g_ce, g_case, (g_gen g_case), ("foo", [g_x false 0 0]), ("Foo", [g_y false 0 0]), 7. split; [reflexivity|].
  split. { unfold g_gen. destruct (gen_and_compile g_cfg p_te0 g_ce g_case) eqn:E; [reflexivity|]. exfalso. revert E. vm_compute. discriminate. }
  split; [discriminate|]. split; [discriminate|]. split; [reflexivity|]. split; [reflexivity|]. intros E. vm_compute in E. discriminate.
Qed.
Print Assumptions C65_conflicts_rejected_partial.
Print Assumptions C65_same_type_refuted.
Print Assumptions C65_same_message_type_refuted.
(* The header is generated before the conflict is found. *)
Example C65_example : gen_and_compile g_cfg p_te0 g_ce g_ok = Some (g_gen g_ok) /\ gen_h g_cfg g_conflict <> None /\ gen_c g_cfg g_conflict = None
  /\ gen_and_compile g_cfg p_te0 g_ce [("foo", [g_x false 0 0]); ("foo", [g_y false 0 0])] = None
  /\ gen_and_compile g_cfg p_te0 g_ce [("foo", [g_x false 0 0; g_x true 0 0])] = None.
Proof. split; [exact g_accepted|]. split; [vm_compute; discriminate|]. repeat split; vm_compute; reflexivity. Qed.

(* ---------------------------------------------------------------- C66 *)
(* The definitions in gen__pfcp_ies_auto.c, with any headers that declare the types of leaf IEs: they compile, the table of every message
   type is the one of TablesModel.v (to which C18-C29 and C54-C58 apply), every IE is stored in the member that has its name, and the
   members fit into union osmo_pfcp_ies and do not overlap. *)
Theorem C66_pfcp_tables te0 : pfcp_env te0 ->
  exists r u, gen_and_compile pfcp_cfg te0 pfcp_ce pfcp_msgs = Some r
  /\ (forall T ty, te0 T = Some ty -> gr_types r T = Some ty)
  /\ gr_types r "union osmo_pfcp_ies" = Some u
  /\ (forall t, option_map (map (erase pfcp_leaf)) (defs_get (gr_defs r) t) = msg_table t)
  /\ Forall2 (fun m d => Forall2 (placed pfcp_cfg (gr_types r) (msg_struct pfcp_cfg (fst m))) (snd m) (snd d)) pfcp_msgs (gr_defs r)
  /\ (forall t ies lk, defs_get (gr_defs r) t = Some ies -> sizes_agree te0 lk -> layout_ok lk (ty_size u) ies)
  /\ 0 < ty_size u.
Proof. exact (pfcp_generated te0). Qed.
Print Assumptions C66_pfcp_tables.
(* Each IE that is no group, at any depth, has a decoding, an encoding and a printing function, all three those of one IE of pfcp_ies_custom.h *)
Theorem C66_functions te0 r d f : pfcp_env te0 -> gen_and_compile pfcp_cfg te0 pfcp_ce pfcp_msgs = Some r ->
  In d (gr_defs r) -> In f (flat_map all_functions (snd d)) ->
  exists n, In ("osmo_pfcp_dec_" ++ n)%string (map fst pfcp_funcs)
  /\ f = mkFns ("osmo_pfcp_dec_" ++ n) ("osmo_pfcp_enc_" ++ n) (Some ("osmo_pfcp_enc_to_str_" ++ n)%string).
Proof. exact (pfcp_functions te0 r d f). Qed.
Print Assumptions C66_functions.
Example C66_example be : pfcp_env p_te /\ sizes_agree p_te (p_lk be C57_T) /\ gen_union_size pfcp_cfg p_r = 110600.
Proof. split; [exact p_env|]. split; [exact (p_sizes be C57_T)|exact p_union_size]. Qed.

(* ---------------------------------------------------------------- C67 *)
(* Decoding the IEs of a received PFCP message into the zeroed union of struct osmo_pfcp_msg: for every message type and every datagram,
   no assertion fails and nothing outside of datagram and union is accessed; the outcome is the one of C18-C26; on success
   the members of the union hold the decoded IEs. *)
Theorem C67_pfcp_decode te0 r lk ld T be t d rest dm : pfcp_host te0 r lk ld T ->
  bytes_ok (d ++ rest) -> In 0 rest -> lenN dm = gen_union_size pfcp_cfg r -> Forall (fun b => b = 0) dm ->
  match decode_tlv t (d ++ rest) (lenN d) with
  | Ok slots => exists dm', gen_ies_decode pfcp_cfg r lk be t16l16v false t (d ++ rest) (lenN d) dm = (dm', Ok tt) /\ union_holds r lk ld be t dm' slots
  | Err e => exists dm', gen_ies_decode pfcp_cfg r lk be t16l16v false t (d ++ rest) (lenN d) dm = (dm', Err e) /\ lenN dm' = gen_union_size pfcp_cfg r
  | UB _ => False
  end.
Proof. exact (fun HH => pfcp_decode_mem te0 r lk ld T be HH t d rest dm). Qed.
(* Message types that have no IEs defined: -ENOTSUP, and the union is left as it is. *)
Theorem C67_unknown_type te0 r lk ld T be t dm : pfcp_host te0 r lk ld T -> get_msg_coding t = None -> lenN dm = gen_union_size pfcp_cfg r ->
  (forall m len, gen_ies_decode pfcp_cfg r lk be t16l16v false t m len dm = (dm, Err ENOTSUP))
  /\ (forall cap buf, gen_ies_encode pfcp_cfg r lk be dm t t16l16v cap buf = EErr buf ENOTSUP).
Proof. exact (fun HH => pfcp_no_table te0 r lk ld T be HH t dm). Qed.
Print Assumptions C67_pfcp_decode.
Print Assumptions C67_unknown_type.
(* The char and byte arrays of the IE structs (pfcp_ies_custom.h) are large enough for everything that can be decoded. *)
Theorem C67_arrays_suffice k v rest x T n : bytes_ok v -> (k = KActPredef -> In 0 rest) -> dec_of k (v ++ rest) (lenN v) = Ok x -> In (k, T, n) arrays ->
  exists o f, offset_of p_te T None n = Some (o, f) /\ array_len x <= fi_size f.
Proof. exact (arrays_suffice k v rest x T n). Qed.
Print Assumptions C67_arrays_suffice.
(* The longest Network Instance fills its array. *)
Example C67_arrays_example : exists x f, dec_of KNetInst ([63] ++ repeat 97 63 ++ [63] ++ repeat 97 63 ++ [63] ++ repeat 97 63 ++ [61] ++ repeat 97 61) 254 = Ok x
  /\ offset_of p_te "struct osmo_pfcp_ie_network_inst" None "str" = Some (0, f) /\ array_len x = fi_size f.
Proof. do 2 eexists. split; [vm_compute; reflexivity|]. split; vm_compute; reflexivity. Qed.

(* Session Establishment Response: Node ID, Cause, Created PDR with PDR ID and F-TEID *)
Definition C67_wire : list N :=
  [0; 60; 0; 5; 0; 1; 2; 3; 4; 0; 19; 0; 1; 1; 0; 8; 0; 12; 0; 56; 0; 2; 0; 7; 0; 21; 0; 2; 13; 9].
Definition C67_slots : list (slot iev) :=
  [ [VLeaf (IvNode (NodeV4 (Sa4 [1; 2; 3; 4] 0)))]; [VLeaf (IvNum 1)]; []; [];
    [VStruct [[VLeaf (IvNum 7)]; [VLeaf (IvFteid (FtChoose true false true 9))]]] ].
Lemma C67_bytes : bytes_ok (C67_wire ++ [0]).
Proof. unfold bytes_ok. repeat constructor. Qed.
Example C67_example be : pfcp_host p_te p_r (p_lk be C57_T) (p_ld be) C57_T
  /\ bytes_ok (C67_wire ++ [0]) /\ decode_tlv 51 (C67_wire ++ [0]) (lenN C67_wire) = Ok C67_slots /\ get_msg_coding 3 = None.
Proof. split; [exact (p_host be C57_T)|]. split; [exact C67_bytes|]. split; vm_compute; reflexivity. Qed.

(* ---------------------------------------------------------------- C68 *)
(* Encoding and printing of a message that is held in the union do what they do for its IEs (C22, C24, C56, C57); a message that is
   encoded and decoded into another zeroed union is held there. *)
Theorem C68_pfcp_encode te0 r lk ld T be t dm slots cap buf : pfcp_host te0 r lk ld T -> union_holds r lk ld be t dm slots ->
  gen_ies_encode pfcp_cfg r lk be dm t t16l16v cap buf = encode_tlv cap buf t slots.
Proof. exact (fun HH => pfcp_encode_mem te0 r lk ld T be HH t dm slots cap buf). Qed.
Theorem C68_pfcp_print te0 r lk ld T be t dm slots b n : pfcp_host te0 r lk ld T -> union_holds r lk ld be t dm slots ->
  gen_ies_to_str pfcp_cfg r lk be dm t (tx_iei T) b n = ies_to_str T t slots b n.
Proof. exact (fun HH => pfcp_print_mem te0 r lk ld T be HH t dm slots b n). Qed.
Theorem C68_pfcp_roundtrip te0 r lk ld T be t ies slots bs dm dm2 buf cap rest : pfcp_host te0 r lk ld T ->
  get_msg_coding t = Some ies -> valid_struct ies slots -> wire_struct ies slots bs ->
  lenN bs <= 65535 -> lenN buf + lenN bs <= cap -> bytes_ok (bs ++ rest) -> In 0 rest ->
  union_holds r lk ld be t dm slots -> lenN dm2 = gen_union_size pfcp_cfg r -> Forall (fun b => b = 0) dm2 ->
  gen_ies_encode pfcp_cfg r lk be dm t t16l16v cap buf = EOk (buf ++ bs)
  /\ exists dm', gen_ies_decode pfcp_cfg r lk be t16l16v false t (bs ++ rest) (lenN bs) dm2 = (dm', Ok tt) /\ union_holds r lk ld be t dm' slots.
Proof. exact (fun HH => pfcp_roundtrip_mem te0 r lk ld T be HH t ies slots bs dm dm2 buf cap rest). Qed.
Print Assumptions C68_pfcp_encode.
Print Assumptions C68_pfcp_print.
Print Assumptions C68_pfcp_roundtrip.
(* such a union exists: the one that C67 decodes into *)
Example C68_example be : exists dm, union_holds p_r (p_lk be C57_T) (p_ld be) be 51 dm C67_slots.
Proof.
  assert (Z : lenN (repeat 0 (N.to_nat (gen_union_size pfcp_cfg p_r))) = gen_union_size pfcp_cfg p_r) by (unfold lenN; rewrite repeat_length; apply N2Nat.id).
  pose proof (C67_pfcp_decode p_te p_r (p_lk be C57_T) (p_ld be) C57_T be 51 C67_wire [0] _ (p_host be C57_T) C67_bytes (or_introl eq_refl) Z) as H.
  rewrite (proj1 (proj2 (proj2 (C67_example be)))) in H. destruct H as (dm & _ & H); [apply Forall_forall; intros x Hx; apply repeat_spec in Hx; exact Hx|].
  exists dm. exact H.
Qed.
