(* PropertiesIeHelp.v -- C109: the helper functions on addresses, F-SEIDs, Node IDs and feature bits on struct members, on any ABI *)
From Coq Require Import String Ascii.
From Verif Require Import Base BaseProofs GtlvModel DecEncModel CStr IesModel IesSpec HelperProofs StrModel MemModel MemTest GenModel GenPfcp PfcpMem PfcpMemProofs IeMemModel IeMemSpec IeMemProofs PropertiesIeMem IeEncModel IeHelpModel IeHelpSpec IeHelpProofs.
Local Open Scope string_scope.
Local Open Scope N_scope.
Local Open Scope list_scope.

(* ---------------------------------------------------------------- C109 *)
(* osmo_pfcp_ip_addrs_set() on a struct at address o, for an address anywhere (also one of the two addresses of that struct): return code and
   members are those of the function on values; nothing outside of the struct changes. *)
Theorem C109_ip_addrs_set te sa_img sa_rd set_port0 o p mem : ie_abi te sa_img sa_rd -> sets_port0 te sa_rd set_port0 ->
  o + sz te IPA <= lenN mem -> addr_ptr te o mem p ->
  exists new rc, c_ip_addrs_set te sa_rd set_port0 o p mem = (new, rc) /\ only o (sz te IPA) mem new
    /\ ip_addrs_set (v_addrs te sa_rd o mem) (sa_rd (addr_at te mem p)) = (v_addrs te sa_rd o new, rc).
Proof. intros HA HP. destruct (HA) as (_ & HB & HS). exact (help_set te sa_rd set_port0 (abi_laid _ _ _ HA) HB HP o p mem). Qed.
Print Assumptions C109_ip_addrs_set.
(* osmo_pfcp_ip_addrs_get(), osmo_pfcp_ie_f_seid_cmp() *)
Theorem C109_ip_addrs_get te sa_img sa_rd src : ie_abi te sa_img sa_rd -> lenN src = sz te IPA ->
  exists v4 v6, c_ip_addrs_get te src = Ok (v4, v6) /\ lenN v4 = sz te SOCKADDR /\ lenN v6 = sz te SOCKADDR
    /\ ip_addrs_get (v_addrs te sa_rd 0 src) = (sa_rd v4, sa_rd v6).
Proof. intros HA. destruct (HA) as (_ & HB & HS). exact (help_get te sa_img sa_rd (abi_laid _ _ _ HA) HB HS src). Qed.
Print Assumptions C109_ip_addrs_get.
Theorem C109_f_seid_cmp te be sa_img sa_rd a b x y : ie_abi te sa_img sa_rd -> lenN a = sz te F_SEID -> lenN b = sz te F_SEID ->
  c_val te be sa_rd KFSeid a = IvFseid x -> c_val te be sa_rd KFSeid b = IvFseid y -> c_f_seid_cmp te be sa_rd a b = Ok (f_seid_cmp x y).
Proof. intros HA. destruct (HA) as (_ & HB & HS). exact (help_cmp te be sa_rd (abi_laid _ _ _ HA) HB a b x y). Qed.
Print Assumptions C109_f_seid_cmp.

(* osmo_pfcp_ie_f_seid_set() with an address in other memory, whatever the F-SEID contained before *)
Theorem C109_f_seid_set te be sa_img sa_rd set_port0 seid l mem : ie_abi te sa_img sa_rd -> sets_port0 te sa_rd set_port0 ->
  lenN mem = sz te F_SEID -> seid < 2 ^ 64 -> lenN l = sz te SOCKADDR ->
  exists new, c_f_seid_set te be sa_rd set_port0 seid (Elsewhere l) mem = (new, Ok tt) /\ lenN new = sz te F_SEID
    /\ c_val te be sa_rd KFSeid new = IvFseid (f_seid_set seid (sa_rd l)).
Proof. intros HA HP. destruct (HA) as (_ & HB & HS). exact (help_fseid_else te be sa_img sa_rd set_port0 (abi_laid _ _ _ HA) HB HS HP seid l mem). Qed.
Print Assumptions C109_f_seid_set.
(* with an address of the same F-SEID the address is lost: the struct is cleared before the address is read *)
Theorem C109_f_seid_set_own te be sa_img sa_rd set_port0 seid n mem : ie_abi te sa_img sa_rd -> sets_port0 te sa_rd set_port0 ->
  lenN mem = sz te F_SEID -> seid < 2 ^ 64 -> n = "v4" \/ n = "v6" ->
  exists new, c_f_seid_set te be sa_rd set_port0 seid (Inside (fo te F_SEID "ip_addr" + fo te IPA n)) mem = (new, Ok tt) /\ lenN new = sz te F_SEID
    /\ c_val te be sa_rd KFSeid new = IvFseid (f_seid_set seid SaUnspec).
Proof. intros HA HP. destruct (HA) as (_ & HB & HS). exact (help_fseid_own te be sa_img sa_rd set_port0 (abi_laid _ _ _ HA) HB HS HP seid n mem). Qed.
Print Assumptions C109_f_seid_set_own.

(* osmo_pfcp_ie_node_id_from_osmo_sockaddr(), osmo_pfcp_ie_node_id_to_osmo_sockaddr() *)
Theorem C109_node_id_from te be sa_img sa_rd l mem : ie_abi te sa_img sa_rd -> lenN mem = sz te NODE_ID -> lenN l = sz te SOCKADDR ->
  match node_id_from_sa (sa_rd l) with
  | Ok n => exists new, c_node_id_from te be sa_rd (Elsewhere l) mem = (new, Ok tt) /\ lenN new = sz te NODE_ID /\ c_val te be sa_rd KNodeId new = IvNode n
  | Err e => c_node_id_from te be sa_rd (Elsewhere l) mem = (mem, Err e)
  | UB _ => False
  end.
Proof. intros HA. destruct (HA) as (_ & HB & HS). exact (help_from te be sa_rd (abi_laid _ _ _ HA) HB l mem). Qed.
Print Assumptions C109_node_id_from.
Theorem C109_node_id_to te be sa_img sa_rd n x os : ie_abi te sa_img sa_rd -> lenN n = sz te NODE_ID -> lenN os = sz te SOCKADDR ->
  c_val te be sa_rd KNodeId n = IvNode x ->
  match node_id_to_sa x (sa_rd os) with
  | Ok y => exists new, c_node_id_to te be sa_rd n os = (new, Ok tt) /\ lenN new = sz te SOCKADDR /\ sa_rd new = y
  | Err e => c_node_id_to te be sa_rd n os = (os, Err e)
  | UB _ => False
  end.
Proof. intros HA. destruct (HA) as (_ & HB & HS). exact (help_to te be sa_rd (abi_laid _ _ _ HA) HB n x os). Qed.
Print Assumptions C109_node_id_to.

(* osmo_pfcp_bits_set() on an array of n bytes anywhere in memory: only the named bit of the array changes, and nothing outside of it *)
Theorem C109_bits_set a n pos v mem : a + n <= lenN mem -> pos < 8 * n ->
  exists new, c_bits_set a pos v mem = (new, Ok tt) /\ only a n mem new
    /\ forall pos', pos' < 8 * n -> c_bits_get a pos' new = if pos' =? pos then Ok v else c_bits_get a pos' mem.
Proof.
  intros H L. destruct (help_bits_set a n pos v mem H L) as (new & bits & E & O & B & G). exists new. split; [exact E|]. split; [exact O|].
  assert (LM : lenN (get_at a n mem) = n) by (apply get_len, H). destruct (bits_set_get (get_at a n mem) pos v) as (bits' & B' & _ & S1 & S2); [rewrite LM; exact L|].
  rewrite B in B'. apply (f_equal (fun r => match r with Ok x => x | _ => [] end)) in B'. cbn beta iota in B'. subst bits'.
  intros pos' L'. destruct O as [LN _]. rewrite (help_bits_get a n pos' new) by (rewrite ?LN; assumption). rewrite (help_bits_get a n pos' mem) by assumption. rewrite G.
  destruct (N.eqb_spec pos' pos) as [->|NE]; [exact S1|exact (S2 pos' NE)].
Qed.
Print Assumptions C109_bits_set.
(* osmo_pfcp_bits_get(): bit pos % 8 of octet pos / 8 *)
Theorem C109_bits_get a n pos mem : a + n <= lenN mem -> pos < 8 * n ->
  c_bits_get a pos mem = Ok (N.testbit (nth (N.to_nat (pos / 8)) (get_at a n mem) 0) (pos mod 8)).
Proof. intros H L. rewrite (help_bits_get a n pos mem H L). apply bits_get_bit. rewrite (get_len a n mem H). exact L. Qed.
Print Assumptions C109_bits_get.
(* a position beyond the array is not checked: the access is outside of the array *)
Theorem C109_bits_range_refuted : exists n pos v mem, lenN mem = n /\ 8 * n <= pos /\ c_bits_get 0 pos mem = UB OobRead /\ exists u, c_bits_set 0 pos v mem = (mem, UB u).
Proof.
  exists 4, 32, true, [0; 0; 0; 0]. destruct (help_bits_oob 0 4 32 true [0; 0; 0; 0] eq_refl ltac:(discriminate)) as [G S]. split; [reflexivity|]. split; [discriminate|]. split; [exact G|exact S].
Qed.
Print Assumptions C109_bits_range_refuted.

(* The hypotheses: the ABIs of C104_example. set_port0 clears the port, which follows the family (2 or 10 in the image of PfcpMem.v). *)
Definition p_port0 (be : bool) (l : list N) : list N := match sa_val be l with SaUnspec => l | _ => takeN 2 l ++ [0; 0] ++ dropN 4 l end.
Lemma p_port0_ok be te : sz te SOCKADDR = 128 -> sets_port0 te (sa_val be) (p_port0 be).
Proof.
  intros E l. rewrite E. intros L. destruct l as [|a [|b [|c [|d r]]]]; try (vm_compute in L; discriminate L).
  assert (F : p_port0 be (a :: b :: c :: d :: r) = match sa_val be (a :: b :: c :: d :: r) with SaUnspec => a :: b :: c :: d :: r | _ => a :: b :: 0 :: 0 :: r end).
  { unfold p_port0. destruct (sa_val be (a :: b :: c :: d :: r)); reflexivity. }
  rewrite F. split; [destruct (sa_val be (a :: b :: c :: d :: r)); exact L|].
  assert (V : forall x y, sa_val be (a :: b :: x :: y :: r) = (if y2n be [a; b] =? 2 then Sa4 (takeN 4 r) (be_get [x; y]) else if y2n be [a; b] =? 10 then Sa6 (get_at 4 16 r) (be_get [x; y]) else SaUnspec)).
  { intros x y. reflexivity. }
  rewrite (V c d). destruct (y2n be [a; b] =? 2) eqn:E2; [|destruct (y2n be [a; b] =? 10) eqn:E3]; cbn iota; rewrite V; reflexivity.
Qed.
Lemma p_abi be : ie_abi p_te (sa_mem be) (sa_val be).
Proof. exact (proj1 (C104_example be)). Qed.
Definition C109_addr : list N := sa_mem false (Sa4 [10; 0; 0; 1] 8805).
Definition C109_mem : list N := fst (c_f_seid_set p_te false (sa_val false) (p_port0 false) 5 (Elsewhere C109_addr) (Base.zeros (N.to_nat (sz p_te F_SEID)))).
Example C109_example : ie_abi p_te (sa_mem false) (sa_val false) /\ sets_port0 p_te (sa_val false) (p_port0 false) /\ lenN C109_mem = sz p_te F_SEID
  /\ c_val p_te false (sa_val false) KFSeid C109_mem = IvFseid (mkFseid 5 (mkAddrs true (Sa4 [10; 0; 0; 1] 0) false SaUnspec))
  /\ addr_ptr p_te (fo p_te F_SEID "ip_addr") C109_mem (Inside (fo p_te F_SEID "ip_addr" + fo p_te IPA "v4"))
  /\ c_f_seid_cmp p_te false (sa_val false) C109_mem C109_mem = Ok 0%Z
  /\ snd (c_bits_set 1 11 true [255; 0; 0; 255]) = Ok tt /\ fst (c_bits_set 1 11 true [255; 0; 0; 255]) = [255; 0; 8; 255].
Proof.
  split; [exact (p_abi false)|]. split; [apply p_port0_ok; vm_compute; reflexivity|]. split; [vm_compute; reflexivity|]. split; [vm_compute; reflexivity|].
  split; [split; [vm_compute; discriminate|right; right; left; reflexivity]|]. split; [vm_compute; reflexivity|]. split; vm_compute; reflexivity.
Qed.
(* osmo_pfcp_ie_f_seid_set(f, 7, &f->ip_addr.v4) on an F-SEID with that address: no address is left *)
Theorem C109_f_seid_set_own_refuted : exists te be sa_img sa_rd set_port0 seid mem x, ie_abi te sa_img sa_rd /\ sets_port0 te sa_rd set_port0
  /\ lenN mem = sz te F_SEID /\ seid < 2 ^ 64
  /\ let p := Inside (fo te F_SEID "ip_addr" + fo te IPA "v4") in
     sa_rd (addr_at te mem p) = x /\ x <> SaUnspec
     /\ exists new, c_f_seid_set te be sa_rd set_port0 seid p mem = (new, Ok tt) /\ c_val te be sa_rd KFSeid new <> IvFseid (f_seid_set seid x).
Proof.
  exists p_te, false, (sa_mem false), (sa_val false), (p_port0 false), 7, C109_mem, (Sa4 [10; 0; 0; 1] 0). destruct C109_example as (HA & HP & L & _).
  split; [exact HA|]. split; [exact HP|]. split; [exact L|]. split; [reflexivity|]. cbn zeta. split; [vm_compute; reflexivity|]. split; [discriminate|].
  destruct (C109_f_seid_set_own p_te false _ _ _ 7 "v4" C109_mem HA HP L eq_refl (or_introl eq_refl)) as (new & E & _ & V). exists new. split; [exact E|]. rewrite V. discriminate.
Qed.
Print Assumptions C109_f_seid_set_own_refuted.
