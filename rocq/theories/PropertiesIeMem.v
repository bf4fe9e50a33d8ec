(* PropertiesIeMem.v -- C104, C105: the IE decoders of pfcp_ies_custom.c store to the members of their structs, on any ABI *)
From Coq Require Import String Ascii.
From Verif Require Import Base BaseProofs GtlvModel DecEncModel CStr IesModel IesSpec IesProofs TablesModel MsgModel StrModel MemModel MemSpec MemProofs MemTest GenModel GenSpec GenProofs GenPfcp GenPfcpProofs PfcpMem PfcpMemProofs PfcpMemFinal PropertiesIes PropertiesStr PropertiesGen IeMemModel IeMemSpec IeMemProofs IeMemStr IeMemDec.
Local Open Scope string_scope.
Local Open Scope N_scope.
Local Open Scope list_scope.

Lemma abi_laid te sa_img sa_rd : ie_abi te sa_img sa_rd -> Forall (laid_out te) custom_h.
Proof. intros ((te0 & HA & HC) & _). exact (proj2 (proj2 (cc_laid _ _ _ HA HC))). Qed.
(* for any old contents *)
Lemma any_old te be sa_img sa_rd k m len old : ie_abi te sa_img sa_rd -> bytes_ok m -> lenN old = sz te (ktype k) ->
  match dec_of k m len with
  | Ok v => exists new, c_dec te be sa_img k m len old = (new, Ok tt) /\ lenN new = sz te (ktype k)
      /\ (resets k = true -> c_val te be sa_rd k new = v) /\ (k <> KOhr -> present_only (c_val te be sa_rd k new) = present_only v)
  | Err e => exists new, c_dec te be sa_img k m len old = (new, Err e) /\ lenN new = sz te (ktype k)
  | UB _ => True
  end.
Proof.
  intros HA HM HL. pose proof (abi_laid _ _ _ HA) as LY. destruct HA as (HT & HB & HS). destruct (resets k) eqn:R.
  - pose proof (all_any te be sa_img sa_rd LY HB HS k R m len old HM HL) as G. unfold ref in G. destruct (dec_of k m len) as [v|e|u]; [|exact G|exact I].
    destruct G as (new & [] & E & L & V). exists new. rewrite V. auto.
  - assert (PP : forall v, present_only (present_only v) = present_only v).
    { intros v. destruct v as [| | |x| | | | |x]; try reflexivity; cbn [present_only fs_seid fs_addr ue_chv6 ue_chv4 ue_dest ue_addr ue_delegp ue_deleg ue_plenp ue_plen]; f_equal; f_equal;
      unfold present_addrs; cbn [ia_v4p ia_v4 ia_v6p ia_v6].
      - destruct (fs_addr x) as [a b c d]; cbn [ia_v4p ia_v4 ia_v6p ia_v6]; destruct a, c; reflexivity.
      - destruct (ue_addr x) as [a b c d]; cbn [ia_v4p ia_v4 ia_v6p ia_v6]; destruct a, c; reflexivity.
      - destruct (ue_delegp x); reflexivity.
      - destruct (ue_plenp x); reflexivity. }
    destruct k; try discriminate R.
    + pose proof (old_fseid te be sa_img sa_rd LY HB HS m len old HM HL) as G. unfold ref in G. destruct (dec_of KFSeid m len) as [v|e|u]; [|exact G|exact I].
      destruct G as (new & [] & E & L & V). exists new. split; [exact E|]. split; [exact L|]. split; [discriminate|]. intros _. rewrite <- V, PP. reflexivity.
    + pose proof (old_ohr te be sa_img sa_rd LY HB m len old HM HL) as G. unfold ref in G. cbn [ktype]. destruct (dec_of KOhr m len) as [v|e|u]; [|exact G|exact I].
      destruct G as (new & [] & E & L & V). exists new. split; [exact E|]. split; [exact L|]. split; [discriminate|]. intros C. contradiction C. reflexivity.
    + pose proof (old_ueip te be sa_img sa_rd LY HB HS m len old HM HL) as G. unfold ref in G. destruct (dec_of KUeIp m len) as [v|e|u]; [|exact G|exact I].
      destruct G as (new & [] & E & L & V). exists new. split; [exact E|]. split; [exact L|]. split; [discriminate|]. intros _. rewrite <- V, PP. reflexivity.
Qed.
Lemma kinds_types : forallb (fun e : string * (kind * string) => String.eqb (snd (snd e)) (ktype (fst (snd e)))) pfcp_funcs = true.
Proof. vm_compute. reflexivity. Qed.
Lemma c_sizes te be sa_img sa_rd T : sizes_agree te (c_lk te be sa_img sa_rd T).
Proof.
  intros f t ty Ht Hty. apply type_of_kind in Ht. pose proof kinds_types as G. rewrite forallb_forall in G. specialize (G _ Ht). cbn [fst snd] in G. apply String.eqb_eq in G. subst t.
  unfold c_lk, c_leaf. cbn [ml_size]. unfold sz. rewrite Hty. reflexivity.
Qed.

(* ---------------------------------------------------------------- C104 *)
Theorem C104_decode te be sa_img sa_rd k m len old : ie_abi te sa_img sa_rd -> bytes_ok m -> lenN old = sz te (ktype k) -> Forall (fun b => b = 0) old ->
  match dec_of k m len with
  | Ok v => exists new, c_dec te be sa_img k m len old = (new, Ok tt) /\ lenN new = sz te (ktype k) /\ c_val te be sa_rd k new = v
  | Err e => exists new, c_dec te be sa_img k m len old = (new, Err e) /\ lenN new = sz te (ktype k)
  | UB _ => True
  end.
Proof.
  intros HA HM HL HZ. destruct HA as (HT & HB & HS).
  pose proof (all_good te be sa_img sa_rd (abi_laid te sa_img sa_rd (conj HT (conj HB HS))) HB HS k m len old HM HL) as G.
  rewrite <- HL in G. specialize (G (all_zero_of old HZ)). rewrite HL in G. unfold ref in G. destruct (dec_of k m len) as [v|e|u]; [|exact G|exact I].
  destruct G as (new & [] & E & L & V). exists new. auto.
Qed.
Print Assumptions C104_decode.
(* No decoder accesses memory outside of the IE and of its struct, whatever the struct contained before; the return code does not depend on that. *)
Theorem C104_bounds te be sa_img sa_rd k v rest old : ie_abi te sa_img sa_rd -> bytes_ok (v ++ rest) -> (k = KActPredef -> In 0 rest) -> lenN old = sz te (ktype k) ->
  exists new r, c_dec te be sa_img k (v ++ rest) (lenN v) old = (new, r) /\ lenN new = sz te (ktype k)
    /\ match dec_of k (v ++ rest) (lenN v) with Ok _ => r = Ok tt | Err e => r = Err e | UB _ => False end.
Proof.
  intros HA HM HK HL. pose proof (any_old te be sa_img sa_rd k (v ++ rest) (lenN v) old HA HM HL) as G.
  assert (NU : forall u, dec_of k (v ++ rest) (lenN v) <> UB u).
  { assert (D : k = KActPredef \/ k <> KActPredef) by (destruct k; (left; reflexivity) || (right; discriminate)). destruct D as [->|D]; [exact (proj1 (act_predef_safe v rest (HK eq_refl)))|exact (proj1 (dec_safe k v rest D))]. }
  destruct (dec_of k (v ++ rest) (lenN v)) as [x|e|u]; [| |contradiction (NU u eq_refl)].
  - destruct G as (new & E & L & _). exists new, (Ok tt). auto.
  - destruct G as (new & E & L). exists new, (Err e). auto.
Qed.
(* These decoders fit the generated tables on every ABI: C67, C68 and C103 hold with them, without assuming how decoders store. *)
Theorem C104_host te r be sa_img sa_rd T : ie_abi te sa_img sa_rd -> pfcp_env te -> gen_and_compile pfcp_cfg te pfcp_ce pfcp_msgs = Some r -> gen_union_size pfcp_cfg r < 2 ^ 32 ->
  pfcp_host te r (c_lk te be sa_img sa_rd T) (c_ld te be sa_rd) T.
Proof.
  intros HA HE HG HU. unfold pfcp_host. split; [exact HE|]. split; [exact HG|]. split; [apply c_sizes|]. split; [exact HU|]. split; [|split].
  - intros f. unfold dec_ok, pfcp_leaf, leaf_of, c_lk, c_leaf, c_ld. cbn [lf_dec ml_dec ml_size]. intros old m len HL HZ HM.
    pose proof (C104_decode te be sa_img sa_rd (kind_of f) m len old HA HM HL HZ) as G. destruct (dec_of (kind_of f) m len) as [v|e|u].
    + destruct G as (new & -> & L & V). auto.
    + destruct G as (new & -> & L). auto.
    + destruct (c_dec _ _ _ _ _ _ _) as [a b]. exact I.
  - intros f. unfold enc_ok, pfcp_leaf, leaf_of, c_lk, c_leaf, c_ld. cbn [lf_enc ml_enc]. reflexivity.
  - intros f. unfold str_ok, c_lk, c_leaf, c_ld. cbn [ml_str]. reflexivity.
Qed.
(* A received message body: the IE structs in the union hold what the body says. *)
Theorem C104_message te r be sa_img sa_rd T t d rest dm : ie_abi te sa_img sa_rd -> pfcp_env te -> gen_and_compile pfcp_cfg te pfcp_ce pfcp_msgs = Some r -> gen_union_size pfcp_cfg r < 2 ^ 32 ->
  bytes_ok (d ++ rest) -> In 0 rest -> lenN dm = gen_union_size pfcp_cfg r -> Forall (fun b => b = 0) dm ->
  match decode_tlv t (d ++ rest) (lenN d) with
  | Ok slots => exists dm', gen_ies_decode pfcp_cfg r (c_lk te be sa_img sa_rd T) be t16l16v false t (d ++ rest) (lenN d) dm = (dm', Ok tt)
      /\ union_holds r (c_lk te be sa_img sa_rd T) (c_ld te be sa_rd) be t dm' slots
  | Err e => exists dm', gen_ies_decode pfcp_cfg r (c_lk te be sa_img sa_rd T) be t16l16v false t (d ++ rest) (lenN d) dm = (dm', Err e) /\ lenN dm' = gen_union_size pfcp_cfg r
  | UB _ => False
  end.
Proof. intros HA HE HG HU. exact (C67_pfcp_decode te r _ _ T be t d rest dm (C104_host te r be sa_img sa_rd T HA HE HG HU)). Qed.
Print Assumptions C104_bounds.
Print Assumptions C104_host.
Print Assumptions C104_message.

(* two ABIs: the usual 64-bit one (PfcpMem.v), and one with enums of one byte, no alignment and an osmo_sockaddr of 128 bytes *)
Definition q_base : list (string * tyinfo) :=
  map (fun e : string * N => (fst e, mkTy (snd e) 1 []))
    [ ("bool", 1); ("char", 1); ("unsigned int", 4); ("uint8_t", 1); ("uint16_t", 2); ("uint32_t", 4); ("uint64_t", 8);
      ("enum osmo_pfcp_cause", 1); ("enum osmo_pfcp_iei", 2); ("enum osmo_pfcp_3gpp_iface_type", 1); ("enum osmo_pfcp_source_iface", 1);
      ("enum osmo_pfcp_dest_iface", 1); ("enum osmo_pfcp_node_id_type", 1); ("enum osmo_pfcp_outer_header_removal_desc", 1); ("struct osmo_sockaddr", 128) ].
Definition q_te0 : tenv := fun t => get t q_base.
Definition q_te : tenv := match cc_h q_te0 custom_h with Some te => te | None => fun _ => None end.
Lemma table_aligns l : forallb (fun e : string * tyinfo => 0 <? ty_align (snd e)) l = true -> aligns (fun t => get t l).
Proof.
  intros H t ty E. apply get_in in E. rewrite forallb_forall in H. apply H in E. apply N.ltb_lt. exact E.
Qed.
Lemma sa_ok_128 te be : sz te SOCKADDR = 128 -> sockaddr_ok te (sa_mem be) (sa_val be).
Proof.
  intros E. unfold sockaddr_ok. rewrite E. split; [|destruct be; vm_compute; reflexivity]. intros o B H.
  assert (SO : sa_ok (sa_from_octets o)).
  { unfold sa_from_octets. destruct H as [H|H]; rewrite H; cbn; auto using N.lt_0_succ. split; [exact H|reflexivity]. split; [exact H|reflexivity]. }
  split; [apply sa_mem_len, SO|apply sa_val_mem, SO].
Qed.
Example C104_example be : ie_abi p_te (sa_mem be) (sa_val be) /\ ie_abi q_te (sa_mem be) (sa_val be) /\ sz p_te NODE_ID = 264 /\ sz q_te NODE_ID = 255
  /\ pfcp_host p_te p_r (c_lk p_te be (sa_mem be) (sa_val be) C57_T) (c_ld p_te be (sa_val be)) C57_T.
Proof.
  assert (P : ie_abi p_te (sa_mem be) (sa_val be)).
  { split; [exists p_te0; split; [exact p_base_aligns|]|]. - unfold p_te. destruct (cc_h p_te0 custom_h) eqn:E; [reflexivity|vm_compute in E; discriminate].
    - split; [repeat split; vm_compute; (reflexivity || discriminate)|]. apply sa_ok_128. vm_compute. reflexivity. }
  split; [exact P|]. split.
  { split; [exists q_te0; split; [apply table_aligns; vm_compute; reflexivity|]|]. - unfold q_te. destruct (cc_h q_te0 custom_h) eqn:E; [reflexivity|vm_compute in E; discriminate].
    - split; [repeat split; vm_compute; (reflexivity || discriminate)|]. apply sa_ok_128. vm_compute. reflexivity. }
  split; [vm_compute; reflexivity|]. split; [vm_compute; reflexivity|]. exact (C104_host p_te p_r be _ _ C57_T P p_env p_gen_some p_small).
Qed.
(* F-TEID with flag V4, TEID 7, 10.0.0.1, on the second ABI: 278 bytes, a big endian host *)
Example C104_example_bytes :
  let new := fst (c_dec q_te true (sa_mem true) KFTeid [1; 0; 0; 0; 7; 10; 0; 0; 1] 9 (Base.zeros (N.to_nat (sz q_te F_TEID)))) in
  takeN 16 new = [0; 0; 0; 0; 7; 1; 0; 2; 0; 0; 10; 0; 0; 1; 0; 0] /\ c_val q_te true (sa_val true) KFTeid new = IvFteid (FtFixed 7 (mkAddrs true (Sa4 [10; 0; 0; 1] 0) false SaUnspec)).
Proof. vm_compute. split; reflexivity. Qed.

(* ---------------------------------------------------------------- C105 *)
(* Decoding into a struct that was used before. All but three kinds of IEs: the same value as from a new struct. *)
Theorem C105_reused te be sa_img sa_rd k m len old v : ie_abi te sa_img sa_rd -> bytes_ok m -> lenN old = sz te (ktype k) -> k <> KFSeid -> k <> KUeIp -> k <> KOhr ->
  dec_of k m len = Ok v -> exists new, c_dec te be sa_img k m len old = (new, Ok tt) /\ c_val te be sa_rd k new = v.
Proof.
  intros HA HM HL H1 H2 H3 E. pose proof (any_old te be sa_img sa_rd k m len old HA HM HL) as G. rewrite E in G. destruct G as (new & C & _ & V & _). exists new. split; [exact C|].
  apply V. destruct k; reflexivity || congruence.
Qed.
(* F-SEID and UE IP Address: the same but for the members whose presence flag says that they are not there. *)
Theorem C105_reused_present te be sa_img sa_rd k m len old v : ie_abi te sa_img sa_rd -> bytes_ok m -> lenN old = sz te (ktype k) -> k <> KOhr ->
  dec_of k m len = Ok v -> exists new, c_dec te be sa_img k m len old = (new, Ok tt) /\ present_only (c_val te be sa_rd k new) = present_only v.
Proof.
  intros HA HM HL H3 E. pose proof (any_old te be sa_img sa_rd k m len old HA HM HL) as G. rewrite E in G. destruct G as (new & C & _ & _ & V). exists new. auto.
Qed.
(* Outer Header Removal, two octets or more: the same. One octet: the members about the GTP-U extension header stay as they were. *)
Theorem C105_removal_partial te be sa_img sa_rd m len old x w : ie_abi te sa_img sa_rd -> bytes_ok m -> lenN old = sz te OHR ->
  dec_of KOhr m len = Ok (IvOhr w) -> c_val te be sa_rd KOhr old = IvOhr x ->
  exists new y, c_dec te be sa_img KOhr m len old = (new, Ok tt) /\ c_val te be sa_rd KOhr new = IvOhr y
    /\ (1 < len -> y = w) /\ (len <= 1 -> or_desc y = or_desc w /\ or_extp y = or_extp x /\ or_ext y = or_ext x).
Proof.
  intros HA HM HL E EX. pose proof (abi_laid _ _ _ HA) as LY. destruct HA as (HT & HB & HS). pose proof (old_ohr te be sa_img sa_rd LY HB m len old HM HL) as G. rewrite E in G. cbn [ref] in G.
  destruct G as (new & [] & C & _ & V). rewrite EX in V. destruct (c_val te be sa_rd KOhr new) as [| | | | | | |y|] eqn:Ey; try contradiction. exists new, y. split; [exact C|]. split; [exact Ey|].
  destruct V as [D V]. destruct (N.ltb_spec 1 len) as [K|K]; (split; intros K'; [|try lia]); try lia.
  - destruct V as [V1 V2]. destruct y as [y1 y2 y3], w as [w1 w2 w3]. cbn [or_desc or_extp or_ext] in *. subst. f_equal.
    unfold dec_of, dec_ohr in E. destruct (len <? 1); [discriminate|]. destruct (rd_be 1 m) as [d|e|u]; try discriminate. cbn [bind] in E. destruct (N.ltb_spec 1 len); [|lia].
    destruct (at_ofs m 1 1) as [z|e|u]; try discriminate. cbn [bind] in E. congruence.
  - destruct V as [V1 V2]. auto.
Qed.
(* So a struct that held an Outer Header Removal with extension header deletion still says so after an IE of one octet was decoded into it. *)
Theorem C105_removal_refuted : exists old new, lenN old = sz p_te OHR /\ c_dec p_te false (sa_mem false) KOhr [0; 1] 2 (Base.zeros 8) = (old, Ok tt)
  /\ c_dec p_te false (sa_mem false) KOhr [0] 1 old = (new, Ok tt) /\ dec_of KOhr [0] 1 = Ok (IvOhr (mkOhr 0 false [0])) /\ c_val p_te false (sa_val false) KOhr new = IvOhr (mkOhr 0 true [1]).
Proof. do 2 eexists. split; [|split; [vm_compute; reflexivity|split; [vm_compute; reflexivity|split; vm_compute; reflexivity]]]. vm_compute. reflexivity. Qed.
(* F-SEID: an old IPv4 address stays in the struct, its flag is cleared. *)
Example C105_example :
  let old := fst (c_dec p_te false (sa_mem false) KFSeid [2; 0; 0; 0; 0; 0; 0; 0; 1; 9; 9; 9; 9] 13 (Base.zeros (N.to_nat (sz p_te F_SEID)))) in
  let new := fst (c_dec p_te false (sa_mem false) KFSeid [0; 0; 0; 0; 0; 0; 0; 0; 2] 9 old) in
  c_val p_te false (sa_val false) KFSeid new = IvFseid (mkFseid 2 (mkAddrs false (Sa4 [9; 9; 9; 9] 0) false SaUnspec))
  /\ present_only (c_val p_te false (sa_val false) KFSeid new) = IvFseid (mkFseid 2 no_addrs).
Proof. vm_compute. split; reflexivity. Qed.
Print Assumptions C105_reused.
Print Assumptions C105_reused_present.
Print Assumptions C105_removal_partial.
Print Assumptions C105_removal_refuted.
