(* IeEncProofs.v -- the encoders and printing functions of pfcp_ies_custom.c on memory (IeEncModel.v) do what those of IesModel.v and StrModel.v
   do on the value that the members hold *)
From Coq Require Import String Ascii.
From Verif Require Import Base BaseProofs GtlvModel DecEncModel DecEncProofs CStr IesModel IesSpec IesProofs PutSpec TablesModel StrModel StrSpec MemModel MemSpec MemProofs MemTest GenModel GenProofs GenPfcp PfcpMem PfcpMemProofs IeMemModel IeMemSpec IeMemProofs IeMemStr IeEncModel IeEncSpec.
Local Open Scope string_scope.
Local Open Scope N_scope.
Local Open Scope list_scope.

(* ---------------------------------------------------------------- strings *)
Section Strings.
Variable mem : list N.
Lemma peek_get a n : a + n <= lenN mem -> peek a n mem = Ok (get_at a n mem).
Proof. intros H. unfold peek. destruct (N.leb_spec (a + n) (lenN mem)); [reflexivity|lia]. Qed.
Lemma get_step a n : a + (1 + n) <= lenN mem -> exists x, get_at a (1 + n) mem = x :: get_at (a + 1) n mem /\ peek a 1 mem = Ok [x].
Proof.
  intros H. rewrite get_app_at, peek_get by lia. pose proof (get_len a 1 mem ltac:(lia)) as L. destruct (get_at a 1 mem) as [|x [|y l]].
  - discriminate L.
  - exists x. auto.
  - exfalso. unfold lenN in L. cbn [length] in L. lia.
Qed.
Lemma be_get_one x : be_get [x] = x.
Proof. unfold be_get. cbn. lia. Qed.
Lemma nat_step n a : a + N.of_nat (S n) <= lenN mem -> exists x, get_at a (N.of_nat (S n)) mem = x :: get_at (a + 1) (N.of_nat n) mem /\ peek a 1 mem = Ok [x].
Proof. intros H. replace (N.of_nat (S n)) with (1 + N.of_nat n) in * by lia. apply get_step. exact H. Qed.
Lemma l_str_ok n : forall a, a + N.of_nat n <= lenN mem -> In 0 (get_at a (N.of_nat n) mem) -> l_str mem n a = Ok (c_str (get_at a (N.of_nat n) mem)).
Proof.
  induction n as [|n IH]; intros a H HI.
  - change (N.of_nat 0) with 0 in HI. unfold get_at, takeN in HI. cbn [N.to_nat firstn] in HI. contradiction.
  - destruct (nat_step n a H) as (x & E & P). rewrite E in HI |- *. cbn [l_str c_str]. rewrite P. cbn [bind]. rewrite be_get_one. destruct (N.eqb_spec x 0) as [->|NX]; [reflexivity|].
    rewrite IH; [reflexivity|lia|]. destruct HI as [HI|HI]; [congruence|exact HI].
Qed.
Lemma l_str_bad n : forall a, a + N.of_nat n <= lenN mem -> ~ In 0 (get_at a (N.of_nat n) mem) -> l_str mem n a = UB OobRead.
Proof.
  induction n as [|n IH]; intros a H HI; [reflexivity|]. destruct (nat_step n a H) as (x & E & P). rewrite E in HI. cbn [l_str]. rewrite P. cbn [bind]. rewrite be_get_one.
  destruct (N.eqb_spec x 0) as [->|NX]; [contradiction HI; left; reflexivity|]. rewrite IH; [reflexivity|lia|]. intros K. apply HI. right. exact K.
Qed.
Lemma l_strn_ok n : forall a, a + N.of_nat n <= lenN mem -> l_strn mem n a = Ok (c_str (get_at a (N.of_nat n) mem)).
Proof.
  induction n as [|n IH]; intros a H.
  - change (N.of_nat 0) with 0. unfold get_at, takeN. reflexivity.
  - destruct (nat_step n a H) as (x & E & P). rewrite E. cbn [l_strn c_str]. rewrite P. cbn [bind]. rewrite be_get_one. destruct (N.eqb_spec x 0) as [->|NX]; [reflexivity|].
    rewrite IH; [reflexivity|lia].
Qed.
Lemma l_apn_ok n : forall a max len out lab, a + N.of_nat n <= lenN mem -> In 0 (get_at a (N.of_nat n) mem) -> len <= max ->
  let s := c_str (get_at a (N.of_nat n) mem) in l_apn mem n a max len out lab = Ok (if max <? len + lenN s then None else Some (out ++ apn_labels lab s)).
Proof.
  cbv zeta. induction n as [|n IH]; intros a max len out lab H HI HM.
  - change (N.of_nat 0) with 0 in HI. unfold get_at, takeN in HI. cbn [N.to_nat firstn] in HI. contradiction.
  - destruct (nat_step n a H) as (x & E & P). rewrite E in HI |- *. cbn [l_apn c_str]. rewrite P. cbn [bind]. rewrite be_get_one. destruct (N.eqb_spec x 0) as [->|NX].
    + change (lenN []) with 0. destruct (N.ltb_spec max (len + 0)); [lia|]. reflexivity.
    + assert (HI' : In 0 (get_at (a + 1) (N.of_nat n) mem)) by (destruct HI as [HI|HI]; [congruence|exact HI]).
      rewrite lenN_cons. destruct (N.leb_spec max len) as [K|K].
      * destruct (N.ltb_spec max (len + (1 + lenN (c_str (get_at (a + 1) (N.of_nat n) mem))))); [reflexivity|lia].
      * cbn [apn_labels]. destruct (x =? 46); (rewrite IH; [|lia|exact HI'|lia]); replace (len + 1 + lenN (c_str (get_at (a + 1) (N.of_nat n) mem))) with (len + (1 + lenN (c_str (get_at (a + 1) (N.of_nat n) mem)))) by lia;
        [rewrite <- app_assoc|]; reflexivity.
Qed.
Lemma apn_from_ok n a max : a + n <= lenN mem -> In 0 (get_at a n mem) -> c_apn_from mem n a max = Ok (apn_from_str max (c_str (get_at a n mem))).
Proof.
  intros H HI. unfold c_apn_from, apn_from_str. destruct (N.eqb_spec max 0) as [->|NM].
  - destruct (N.ltb_spec 0 (lenN (c_str (get_at a n mem)) + 1)); [reflexivity|lia].
  - rewrite <- (N2Nat.id n) in H, HI |- *. rewrite Nat2N.id. rewrite l_apn_ok; [|exact H|exact HI|lia]. rewrite (N.add_comm 1). destruct (max <? _); reflexivity.
Qed.
Lemma l_apn_bad n : forall a max len out lab, a + N.of_nat n <= lenN mem -> ~ In 0 (get_at a (N.of_nat n) mem) -> l_apn mem n a max len out lab = UB OobRead \/ l_apn mem n a max len out lab = Ok None.
Proof.
  induction n as [|n IH]; intros a max len out lab H HI; [left; reflexivity|]. destruct (nat_step n a H) as (x & E & P). rewrite E in HI. cbn [l_apn]. rewrite P. cbn [bind]. rewrite be_get_one.
  destruct (N.eqb_spec x 0) as [->|NX]; [contradiction HI; left; reflexivity|]. destruct (max <=? len); [right; reflexivity|].
  destruct (x =? 46); (apply IH; [lia|]); intros K; apply HI; right; exact K.
Qed.
Lemma apn_from_bad n a max : a + n <= lenN mem -> ~ In 0 (get_at a n mem) -> c_apn_from mem n a max = UB OobRead \/ c_apn_from mem n a max = Ok None.
Proof.
  intros H HI. unfold c_apn_from. destruct (max =? 0); [right; reflexivity|]. rewrite <- (N2Nat.id n) in H, HI. exact (l_apn_bad (N.to_nat n) a max 1 [] [] H HI).
Qed.
Lemma apn_len lab s : lenN (apn_labels lab s) = 1 + lenN lab + lenN s.
Proof.
  revert lab. induction s as [|x s IH]; intros lab; cbn [apn_labels].
  - rewrite lenN_cons. change (lenN []) with 0. lia.
  - destruct (x =? 46).
    + rewrite lenN_app, IH, !lenN_cons. change (lenN []) with 0. lia.
    + rewrite IH, lenN_app, !lenN_cons. change (lenN []) with 0. lia.
Qed.
End Strings.

(* ---------------------------------------------------------------- encoders: what is put *)
Section Put.
Variable room : N.
(* run on [out] (what is in the msgb already), c puts the rest of the bytes of [o] and returns its code, or aborts if they do not fit *)
Definition enc_outcome (o : enc_out) (r : list N * res unit) : Prop :=
  if lenN (fst o) <=? room then r = (fst o, rc_of (snd o)) else exists out, r = (out, UB MsgbAbort).
Definition E (c : mm unit) (out : list N) (o : enc_out) : Prop :=
  (exists t, fst o = out ++ t) /\ (lenN out <= room -> enc_outcome o (c out)).
Lemma E_put x f out o : E (f tt) (out ++ x) o -> E (bindm (put room x) f) out o.
Proof.
  intros ((t & Ht) & H). split; [exists (x ++ t); rewrite Ht, <- app_assoc; reflexivity|]. intros R. unfold bindm, put. destruct (N.ltb_spec room (lenN out + lenN x)) as [K|K].
  - unfold enc_outcome. rewrite Ht, !lenN_app. destruct (N.leb_spec (lenN out + lenN x + lenN t) room); [lia|]. exists out. reflexivity.
  - rewrite <- lenN_app in K. exact (H K).
Qed.
Lemma E_const (c : mm unit) out e : c out = (out, rc_of e) -> E c out (out, e).
Proof. intros H. split; [exists []; rewrite app_nil_r; reflexivity|]. intros R. unfold enc_outcome. cbn [fst snd]. destruct (N.leb_spec (lenN out) room); [exact H|lia]. Qed.
Lemma E_ret out : E (ret tt) out (out, None).
Proof. apply E_const. reflexivity. Qed.
Lemma E_fail out : E fail out (out, Some EINVAL).
Proof. apply E_const. reflexivity. Qed.
Lemma E_fail_then f out : E (bindm fail f) out (out, Some EINVAL).
Proof. apply E_const. reflexivity. Qed.
Lemma E_lift {A} (r : res A) v f out o : r = Ok v -> E (f v) out o -> E (bindm (lift r) f) out o.
Proof. intros -> H. exact H. Qed.
Lemma E_end c out o : E (bindm c (fun _ => ret tt)) out o -> E c out o.
Proof.
  intros [P Q]. split; [exact P|]. intros R. specialize (Q R). unfold enc_outcome, bindm, ret in *. destruct (c out) as [o1 [[]|e|u]]; exact Q.
Qed.
Lemma E_assoc {A} (c : mm A) (g : A -> mm unit) (f : unit -> mm unit) out o : E (bindm c (fun x => bindm (g x) f)) out o -> E (bindm (bindm c g) f) out o.
Proof. unfold E, bindm. destruct (c out) as [o1 [x|e|u]]; trivial. Qed.
Lemma E_outcome c o : E c [] o -> enc_outcome o (c []).
Proof. intros H. apply H. apply N.le_0_l. Qed.
End Put.

Lemma sb_append_ext sb f g : (forall b n, f b n = g b n) -> sb_append sb f = sb_append sb g.
Proof. intros H. unfold sb_append. rewrite H. reflexivity. Qed.

(* ---------------------------------------------------------------- the functions *)
Section Sim.
Variable te : tenv.
Variable be : bool.
Variable sa_rd : list N -> sa.
Hypothesis HL : Forall (laid_out te) custom_h.
Hypothesis HB : base_sizes te.
Variable room : N.
Variable T : texts.
Variable mem : list N.
Notation SA := (sz te SOCKADDR).
Notation vb := v_bool.
Notation vn := (v_num te be).
Notation vs := (v_sa te sa_rd).

Lemma lb_ok a : a + 1 <= lenN mem -> lb mem a = Ok (vb a mem).
Proof. intros H. unfold lb. rewrite peek_get by exact H. reflexivity. Qed.
Lemma ln_ok t a : a + sz te t <= lenN mem -> ln te be mem t a = Ok (vn t a mem).
Proof. intros H. unfold ln. rewrite peek_get by exact H. reflexivity. Qed.
Lemma ls_ok a : a + SA <= lenN mem -> ls te sa_rd mem a = Ok (vs a mem).
Proof. intros H. unfold ls. rewrite peek_get by exact H. reflexivity. Qed.

Lemma put_addrs_ok a f out o : a + fo te IPA "v4_present" + 1 <= lenN mem -> a + fo te IPA "v6_present" + 1 <= lenN mem ->
  a + fo te IPA "v4" + SA <= lenN mem -> a + fo te IPA "v6" + SA <= lenN mem ->
  (match enc_addrs out (v_addrs te sa_rd a mem) with (b, None) => E room (f tt) b o | (b, Some e) => o = (b, Some e) end) ->
  E room (bindm (put_addrs te sa_rd mem room a) f) out o.
Proof.
  intros H1 H2 H3 H4 H. unfold put_addrs. unfold enc_addrs, v_addrs in H. cbn [ia_v4p ia_v4 ia_v6p ia_v6] in H.
  apply E_assoc. eapply E_lift; [apply lb_ok; exact H1|]. apply E_assoc. destruct (vb (a + fo te IPA "v4_present") mem); cbn [when andb] in *.
  - apply E_assoc. eapply E_lift; [apply ls_ok; exact H3|]. destruct (is_inet (vs (a + fo te IPA "v4") mem)); cbn [negb] in *; [|subst o; apply E_fail_then].
    apply E_put. apply E_assoc. eapply E_lift; [apply lb_ok; exact H2|]. destruct (vb (a + fo te IPA "v6_present") mem); cbn [when andb] in *; [|rewrite app_nil_r in H; exact H].
    apply E_assoc. eapply E_lift; [apply ls_ok; exact H4|]. destruct (is_inet6 (vs (a + fo te IPA "v6") mem)); cbn [negb] in *; [|subst o; apply E_fail_then].
    apply E_put. exact H.
  - rewrite app_nil_r in H. change (E room (bindm (bindm (lift (lb mem (a + fo te IPA "v6_present"))) (fun v6 => when v6 (bindm (lift (ls te sa_rd mem (a + fo te IPA "v6"))) (fun x => if negb (is_inet6 x) then fail else put room (sa_to_octets 16 x))))) f) out o).
    apply E_assoc. eapply E_lift; [apply lb_ok; exact H2|]. destruct (vb (a + fo te IPA "v6_present") mem); cbn [when andb] in *; [|rewrite app_nil_r in H; exact H].
    apply E_assoc. eapply E_lift; [apply ls_ok; exact H4|]. destruct (is_inet6 (vs (a + fo te IPA "v6") mem)); cbn [negb] in *; [|subst o; apply E_fail_then].
    apply E_put. exact H.
Qed.
Lemma put_name_ok n a out : a + n <= lenN mem -> In 0 (get_at a n mem) ->
  E room (put_name mem room n a) out (match apn_from_str (room - lenN out) (c_str (get_at a n mem)) with Some b => (out ++ b, None) | None => (out, Some EINVAL) end).
Proof.
  intros H HI. unfold put_name, tailroom_now. unfold E, bindm at 1. cbv beta. fold (E room). unfold bindm, lift. rewrite (apn_from_ok mem n a _ H HI).
  destruct (apn_from_str (room - lenN out) (c_str (get_at a n mem))) as [b|].
  - cbn [fst]. split; [exists b; reflexivity|]. intros R. pose proof (E_end room (put room b) out (out ++ b, None)) as G. destruct (G (E_put room b (fun _ => ret tt) out _ (E_ret room _))) as [_ Q]. exact (Q R).
  - rewrite <- (N2Nat.id n) in H, HI. rewrite (l_str_ok mem _ a H HI). exact (E_fail room out).
Qed.
Lemma put_name_bad n a out : a + n <= lenN mem -> ~ In 0 (get_at a n mem) -> put_name mem room n a out = (out, UB OobRead).
Proof.
  intros H HI. unfold put_name, tailroom_now, bindm, lift. destruct (apn_from_bad mem n a (room - lenN out) H HI) as [->| ->]; [reflexivity|].
  rewrite <- (N2Nat.id n) in H, HI. rewrite (l_str_bad mem _ a H HI). reflexivity.
Qed.
Lemma c_bits_loop_ok a n strs : a + n <= lenN mem -> forall sb first,
  c_bits_loop mem a n strs sb first = bits_loop (get_at a n mem) strs sb first.
Proof.
  intros H. induction strs as [|[pos name] strs IH]; intros sb first; cbn [c_bits_loop bits_loop]; [reflexivity|].
  assert (G : (if n <=? pos / 8 then UB OobRead else l <- peek (a + pos / 8) 1 mem;; Ok (negb (N.land (be_get l) (2 ^ (pos mod 8)) =? 0))) = bits_get (get_at a n mem) pos).
  { unfold bits_get. destruct (N.leb_spec n (pos / 8)) as [K|K].
    - assert (nth_error (get_at a n mem) (N.to_nat (pos / 8)) = None) as ->; [|reflexivity]. apply nth_error_None. pose proof (get_len a n mem H) as L. unfold lenN in L. lia.
    - pose proof (get_app_at a (pos / 8) (n - pos / 8) mem) as S1. replace (pos / 8 + (n - pos / 8)) with n in S1 by lia. rewrite S1.
      replace (n - pos / 8) with (1 + (n - pos / 8 - 1)) by lia. destruct (get_step mem (a + pos / 8) (n - pos / 8 - 1)) as (x & G1 & P); [lia|]. rewrite P, G1. cbn [bind]. rewrite be_get_one.
      pose proof (get_len a (pos / 8) mem ltac:(lia)) as L. rewrite nth_error_app2 by (unfold lenN in L; lia). replace (N.to_nat (pos / 8) - length (get_at a (pos / 8) mem))%nat with 0%nat by (unfold lenN in L; lia). reflexivity. }
  rewrite G. destruct (bits_get (get_at a n mem) pos) as [[]|e|u]; cbn [bind]; [|apply IH|reflexivity|reflexivity].
  destruct (sb_printf sb _); cbn [bind]; [apply IH|reflexivity|reflexivity].
Qed.
Lemma c_bits_str_ok a n strs b m : a + n <= lenN mem -> c_bits_str mem a n strs b m = bits_to_str (get_at a n mem) strs b m.
Proof. intros H. unfold c_bits_str, bits_to_str. rewrite c_bits_loop_ok by exact H. reflexivity. Qed.
Lemma c_addrs_str_ok a b n : a + fo te IPA "v4_present" + 1 <= lenN mem -> a + fo te IPA "v6_present" + 1 <= lenN mem ->
  a + fo te IPA "v4" + SA <= lenN mem -> a + fo te IPA "v6" + SA <= lenN mem ->
  c_addrs_str te sa_rd mem T a b n = ip_addrs_to_str T (v_addrs te sa_rd a mem) b n.
Proof.
  intros H1 H2 H3 H4. unfold c_addrs_str, ip_addrs_to_str, v_addrs. cbn [ia_v4p ia_v4 ia_v6p ia_v6]. rewrite (lb_ok _ H1), (lb_ok _ H2), (ls_ok _ H3), (ls_ok _ H4). cbn [bind].
  destruct (vb (a + fo te IPA "v4_present") mem), (vb (a + fo te IPA "v6_present") mem); cbn [bind orb andb negb]; try reflexivity.
Qed.

(* ---------------------------------------------------------------- layouts of pfcp_ies_custom.h *)
Ltac bases := destruct HB as (B_bool & B_char & B_8 & B_16 & B_32 & B_64 & B_cause & B_iei & B_3gpp & B_src & B_dst & B_nidt & B_ohr).
Lemma lay n h : nth_error custom_h n = Some h -> laid_out te h.
Proof. intros X. apply nth_error_In in X. rewrite Forall_forall in HL. exact (HL h X). Qed.
Ltac lay_in L := unfold laid_out, chain, member_sz, mb, mba in L; cbn [mb_name mb_arr mb_type] in L.
Ltac layout n L := pose proof (lay n _ eq_refl) as L; lay_in L.
Ltac slim := repeat match goal with B : _ <= sz te _ |- _ => clear B end.

Definition encodes (k : kind) : Prop := lenN mem = sz te (ktype k) -> strings_end te be k mem -> E room (c_enc_prog te be sa_rd mem room k) [] (enc_of k room (c_val te be sa_rd k mem)).
Definition prints (k : kind) : Prop := lenN mem = sz te (ktype k) -> forall b n, c_to_str te be sa_rd mem T k b n = ie_to_str T k (c_val te be sa_rd k mem) b n.

Lemma land_mod63 x : N.land x 63 = x mod 64.
Proof. change 63 with (N.ones 6). rewrite N.land_ones. reflexivity. Qed.
Lemma land_mod15 x : N.land x 15 = x mod 16.
Proof. change 15 with (N.ones 4). rewrite N.land_ones. reflexivity. Qed.
Lemma E_last x out : E room (put room x) out (out ++ x, None).
Proof. apply E_end, E_put, E_ret. Qed.
Ltac num_tac := intros L _; cbn [c_enc_prog c_enc_num enc_of c_val ktype] in *; eapply E_lift; [apply ln_ok; rewrite L; reflexivity|]; rewrite ?land_mod63, ?land_mod15; exact (E_last _ []).
Lemma e_num k : match k with KCause | KOffendingIe | K8 | K16 | K32 | K3gppIface | KSrcIface | KDstIface => encodes k | _ => True end.
Proof. destruct k; try exact I; num_tac. Qed.
Lemma p_num k : match k with KCause | KOffendingIe | K8 | K16 | K32 | K3gppIface | KSrcIface | KDstIface => prints k | _ => True end.
Proof. destruct k; try exact I; intros L b n; cbn [c_to_str ktype] in *; (rewrite ln_ok by (rewrite L; reflexivity)); reflexivity. Qed.
Lemma e_bits k : match k with KUpFF | KCpFF | KApplyAction => encodes k | _ => True end.
Proof.
  bases. slim. destruct k; try exact I; intros L _; cbn [c_enc_prog enc_of c_val ktype] in *; [layout 3%nat Y|layout 4%nat Y|layout 11%nat Y]; rewrite B_8 in Y;
  unfold c_enc_bits; (eapply E_lift; [apply peek_get; lia|]); exact (E_last _ []).
Qed.
Lemma p_bits k : match k with KUpFF | KCpFF | KApplyAction => prints k | _ => True end.
Proof.
  bases. slim. destruct k; try exact I; intros L b n; cbn [c_to_str ie_to_str c_val ktype] in *; [layout 3%nat Y|layout 4%nat Y|layout 11%nat Y]; rewrite B_8 in Y; apply c_bits_str_ok; lia.
Qed.
Lemma e_node : encodes KNodeId.
Proof.
  bases. intros L HT. cbn [strings_end] in HT. cbn [c_enc_prog enc_of c_val ktype] in *. layout 1%nat U. layout 2%nat Y. apply Forall_cons_iff in U. destruct U as [[U1 U2] U]. apply Forall_cons_iff in U. destruct U as [[U3 U4] _].
  cbn [mb_name mb_arr mb_type] in U1, U2, U3, U4. rewrite B_char in U4. unfold c_enc_node_id. cbv zeta. eapply E_lift; [apply ln_ok; lia|].
  set (t := vn _ (fo te NODE_ID "type") mem) in *. apply E_put. destruct (N.eqb_spec t 0) as [->|N0]; [|destruct (N.eqb_spec t 1) as [->|N1]; [|destruct (N.eqb_spec t 2) as [E2|N2]]].
  - eapply E_lift; [apply ls_ok; lia|]. apply E_last.
  - eapply E_lift; [apply ls_ok; lia|]. apply E_last.
  - rewrite E2. pose proof (put_name_ok 254 (fo te NODE_ID "u" + fo te "node_id.u" "fqdn") [2] ltac:(lia) (HT E2)) as G. cbn [enc_node_id app] in *. change (lenN [2]) with 1 in G.
    destruct (apn_from_str (room - 1) _); exact G.
  - exact (E_fail room _).
Qed.
Lemma p_node : prints KNodeId.
Proof.
  bases. intros L b n. cbn [c_to_str ie_to_str c_val ktype] in *. layout 1%nat U. layout 2%nat Y. apply Forall_cons_iff in U. destruct U as [[U1 U2] U]. apply Forall_cons_iff in U. destruct U as [[U3 U4] _].
  cbn [mb_name mb_arr mb_type] in U1, U2, U3, U4. rewrite B_char in U4. unfold c_node_id_str. cbv zeta. rewrite ln_ok by lia. cbn [bind].
  set (t := vn _ (fo te NODE_ID "type") mem) in *. rewrite ls_ok by lia. rewrite (l_strn_ok mem 254) by lia. change (N.of_nat 254) with 254. cbn [bind].
  destruct (N.eqb_spec t 0) as [E0|N0]; [rewrite E0; reflexivity|]. destruct (N.eqb_spec t 1) as [E0|N1]; [rewrite E0; reflexivity|]. destruct (N.eqb_spec t 2) as [E0|N2]; reflexivity.
Qed.
Lemma e_str k : match k with KNetInst | KActPredef => encodes k | _ => True end.
Proof.
  bases. slim. destruct k; try exact I; intros L HT; cbn [strings_end] in HT; cbn [c_enc_prog enc_of c_val ktype] in *; [layout 12%nat Y|layout 13%nat Y]; rewrite B_char in Y.
  - pose proof (put_name_ok 254 (fo te NET_INST "str") [] ltac:(lia) HT) as G. unfold c_enc_network_inst, enc_network_inst. change (lenN []) with 0 in G. rewrite N.sub_0_r in G. cbn [app] in G. exact G.
  - unfold c_enc_act_predef, enc_act_predef. eapply E_lift; [apply (l_str_ok mem 256); [lia|exact HT]|]. change (N.of_nat 256) with 256. set (s := c_str _). destruct (N.eqb_spec (lenN s) 0) as [Z|Z]; cbn [negb when].
    + destruct s; [apply E_ret|]. rewrite lenN_cons in Z. lia.
    + exact (E_last s []).
Qed.
Lemma p_str k : match k with KNetInst | KActPredef => prints k | _ => True end.
Proof.
  bases. slim. destruct k; try exact I; intros L b n; cbn [c_to_str ie_to_str c_val ktype] in *; [layout 12%nat Y|layout 13%nat Y]; rewrite B_char in Y.
  - rewrite (l_strn_ok mem 254) by lia. reflexivity.
  - rewrite (l_strn_ok mem 256) by lia. reflexivity.
Qed.
Ltac addrs A := unfold v_addrs; cbn [ia_v4p ia_v4 ia_v6p ia_v6].
Lemma e_fseid : encodes KFSeid.
Proof.
  bases. slim. intros L _. cbn [c_enc_prog enc_of c_val ktype] in *. layout 5%nat Y. layout 0%nat A. rewrite B_64 in Y. rewrite B_bool in A. unfold c_enc_f_seid. cbv zeta.
  eapply E_lift; [apply lb_ok; lia|]. eapply E_lift; [apply lb_ok; lia|]. apply E_put. eapply E_lift; [apply ln_ok; rewrite B_64; lia|]. apply E_put. apply E_end.
  apply put_addrs_ok; [lia|lia|lia|lia|]. unfold enc_f_seid. cbn [fs_addr fs_seid]. set (v := vn "uint64_t" _ mem).
  set (f := be_put 1 _). assert (F : f = [b2n (ia_v6p (v_addrs te sa_rd (fo te F_SEID "ip_addr") mem)) 1 + b2n (ia_v4p (v_addrs te sa_rd (fo te F_SEID "ip_addr") mem)) 2]).
  { subst f. unfold v_addrs. cbn [ia_v4p ia_v6p]. destruct (vb _ mem), (vb _ mem); reflexivity. }
  rewrite F. cbn [app]. destruct (enc_addrs _ _) as [b [e|]]; [reflexivity|apply E_ret].
Qed.
Lemma p_fseid : prints KFSeid.
Proof.
  bases. slim. intros L b n. cbn [c_to_str ie_to_str c_val ktype] in *. layout 5%nat Y. layout 0%nat A. rewrite B_64 in Y. rewrite B_bool in A. unfold c_f_seid_str, f_seid_to_str. cbv zeta.
  rewrite ln_ok by (rewrite B_64; lia). cbn [bind fs_addr fs_seid]. destruct (sb_printf _ _) as [sb|e|u]; cbn [bind]; [|reflexivity|reflexivity].
  erewrite sb_append_ext; [reflexivity|]. intros b' n'. apply c_addrs_str_ok; lia.
Qed.
Lemma e_fteid : encodes KFTeid.
Proof.
  bases. slim. intros L _. cbn [c_enc_prog enc_of c_val ktype] in *. layout 9%nat Y. layout 8%nat U. layout 6%nat X. layout 7%nat H. layout 0%nat A.
  apply Forall_cons_iff in U. destruct U as [[U1 U2] U]. apply Forall_cons_iff in U. destruct U as [[U3 U4] _]. cbn [mb_name mb_arr mb_type] in U1, U2, U3, U4.
  rewrite B_bool in Y, A, H. rewrite B_32 in X. rewrite B_8 in H. unfold c_enc_f_teid, enc_f_teid. cbv zeta.
  eapply E_lift; [apply lb_ok; lia|]. destruct (vb (fo te F_TEID "choose_flag") mem); cbn [negb].
  - eapply E_lift; [apply lb_ok; lia|]. eapply E_lift; [apply lb_ok; lia|]. eapply E_lift; [apply lb_ok; lia|]. apply E_put.
    set (c := fo te F_TEID "u" + fo te "f_teid.u" "choose"). set (v4 := vb (c + fo te "f_teid.choose" "ipv4_addr") mem). set (v6 := vb (c + fo te "f_teid.choose" "ipv6_addr") mem).
    set (i := vb (c + fo te "f_teid.choose" "choose_id_present") mem). assert (F : be_put 1 (N.lor (tern true 4) (tern v4 1 + tern v6 2 + tern i 8)) = [4 + (b2n v4 1 + b2n v6 2 + b2n i 8)]) by (destruct v4, v6, i; reflexivity).
    rewrite F. cbn [app]. destruct i; cbn [when]; [|apply E_ret]. eapply E_lift; [apply ln_ok; rewrite B_8; subst c; lia|]. apply E_last.
  - eapply E_lift; [apply lb_ok; lia|]. eapply E_lift; [apply lb_ok; lia|]. apply E_put. eapply E_lift; [apply ln_ok; rewrite B_32; lia|]. apply E_put. apply E_end.
    apply put_addrs_ok; [lia|lia|lia|lia|]. set (a := fo te F_TEID "u" + fo te "f_teid.u" "fixed" + fo te "f_teid.fixed" "ip_addr").
    set (f := be_put 1 _). assert (F : f = [b2n (ia_v4p (v_addrs te sa_rd a mem)) 1 + b2n (ia_v6p (v_addrs te sa_rd a mem)) 2]).
    { subst f. unfold v_addrs. cbn [ia_v4p ia_v6p]. destruct (vb _ mem), (vb _ mem); reflexivity. }
    rewrite F. cbn [app]. destruct (enc_addrs _ _) as [b [e|]]; [reflexivity|apply E_ret].
Qed.
Lemma p_fteid : prints KFTeid.
Proof.
  bases. slim. intros L b n. cbn [c_to_str ie_to_str c_val ktype] in *. layout 9%nat Y. layout 8%nat U. layout 6%nat X. layout 7%nat H. layout 0%nat A.
  apply Forall_cons_iff in U. destruct U as [[U1 U2] U]. apply Forall_cons_iff in U. destruct U as [[U3 U4] _]. cbn [mb_name mb_arr mb_type] in U1, U2, U3, U4.
  rewrite B_bool in Y, A, H. rewrite B_32 in X. rewrite B_8 in H. unfold c_f_teid_str, f_teid_to_str. cbv zeta.
  rewrite lb_ok by lia. cbn [bind]. destruct (vb (fo te F_TEID "choose_flag") mem).
  - rewrite !lb_ok by lia. rewrite ln_ok by (rewrite B_8; lia). reflexivity.
  - rewrite ln_ok by (rewrite B_32; lia). cbn [bind]. destruct (sb_printf _ _) as [sb|e|u]; cbn [bind]; [|reflexivity|reflexivity].
    erewrite sb_append_ext; [reflexivity|]. intros b' n'. apply c_addrs_str_ok; lia.
Qed.
Lemma e_ohr : encodes KOhr.
Proof.
  bases. intros L _. cbn [c_enc_prog enc_of c_val ktype] in *. layout 15%nat Y. rewrite B_bool, B_8 in Y. unfold c_enc_ohr, enc_ohr. cbn [or_desc or_extp or_ext].
  eapply E_lift; [apply ln_ok; lia|]. apply E_put. eapply E_lift; [apply lb_ok; lia|]. cbn [app]. destruct (vb _ mem); cbn [when]; [|rewrite app_nil_r; apply E_ret].
  unfold c_enc_bits. eapply E_lift; [apply peek_get; lia|]. apply E_last.
Qed.
Lemma p_ohr : prints KOhr.
Proof.
  bases. intros L b n. cbn [c_to_str ie_to_str c_val ktype] in *. layout 15%nat Y. rewrite B_bool, B_8 in Y. unfold c_ohr_str, ohr_to_str. cbn [or_desc or_extp or_ext]. cbv zeta.
  rewrite ln_ok by lia. cbn [bind]. destruct (sb_printf _ _) as [sb|e|u]; cbn [bind]; [|reflexivity|reflexivity]. rewrite lb_ok by lia. cbn [bind].
  destruct (get_step mem (fo te OHR "gtp_u_extension_header_del_bits") 0) as (x & G & P); [lia|]. change (1 + 0) with 1 in G. rewrite P, G. cbn [bind]. rewrite be_get_one. reflexivity.
Qed.
Lemma e_ueip : encodes KUeIp.
Proof.
  bases. slim. intros L _. cbn [c_enc_prog enc_of c_val ktype] in *. layout 10%nat Y. layout 0%nat A. rewrite B_bool in Y, A. rewrite B_8 in Y. unfold c_enc_ue_ip, enc_ue_ip. cbv zeta.
  do 7 (eapply E_lift; [apply lb_ok; lia|]). apply E_put. cbn [ue_chv6 ue_chv4 ue_dest ue_addr ue_delegp ue_deleg ue_plenp ue_plen].
  set (f := be_put 1 _). set (g := _ + b2n (ia_v6p _) 1). assert (F : f = [g]).
  { subst f g. unfold v_addrs. cbn [ia_v4p ia_v6p]. generalize (vb (fo te UE_IP "ipv6_prefix_length_present") mem) (vb (fo te UE_IP "chv6") mem) (vb (fo te UE_IP "chv4") mem) (vb (fo te UE_IP "ipv6_prefix_delegation_bits_present") mem)
      (vb (fo te UE_IP "ip_is_destination") mem) (vb (fo te UE_IP "ip_addr" + fo te IPA "v4_present") mem) (vb (fo te UE_IP "ip_addr" + fo te IPA "v6_present") mem).
    intros [] [] [] [] [] [] []; reflexivity. }
  rewrite F. clear F f. cbn [app]. apply put_addrs_ok; [lia|lia|lia|lia|]. destruct (enc_addrs [g] _) as [b [e|]]; [reflexivity|].
  eapply E_lift; [apply lb_ok; lia|]. destruct (vb (fo te UE_IP "ipv6_prefix_delegation_bits_present") mem); cbn [when app].
  - apply E_assoc. eapply E_lift; [apply ln_ok; rewrite B_8; lia|]. apply E_put. eapply E_lift; [apply lb_ok; lia|]. rewrite app_assoc. destruct (vb _ mem); cbn [when]; [|rewrite app_nil_r; apply E_ret].
    eapply E_lift; [apply ln_ok; rewrite B_8; lia|]. apply E_last.
  - match goal with |- E _ (bindm (ret tt) ?g) ?o ?x => change (E room (g tt) o x) end. cbv beta. eapply E_lift; [apply lb_ok; lia|]. destruct (vb _ mem); cbn [when]; [|rewrite app_nil_r; apply E_ret].
    eapply E_lift; [apply ln_ok; rewrite B_8; lia|]. apply E_last.
Qed.
Lemma p_ueip : prints KUeIp.
Proof.
  bases. slim. intros L b n. cbn [c_to_str ie_to_str c_val ktype] in *. layout 10%nat Y. layout 0%nat A. rewrite B_bool in Y, A. rewrite B_8 in Y. unfold c_ue_ip_str, ue_ip_to_str. cbv zeta.
  cbn [ue_chv6 ue_chv4 ue_dest ue_addr ue_delegp ue_deleg ue_plenp ue_plen]. rewrite (lb_ok (fo te UE_IP "chv4")) by lia. cbn [bind].
  destruct (if vb (fo te UE_IP "chv4") mem then _ else _) as [sb|e|u]; cbn [bind]; [|reflexivity|reflexivity]. rewrite (lb_ok (fo te UE_IP "chv6")) by lia. cbn [bind].
  destruct (if vb (fo te UE_IP "chv6") mem then _ else _) as [sb1|e|u]; cbn [bind]; [|reflexivity|reflexivity]. rewrite (lb_ok (fo te UE_IP "ip_is_destination")) by lia. cbn [bind].
  destruct (if vb (fo te UE_IP "ip_is_destination") mem then _ else _) as [sb2|e|u]; cbn [bind]; [|reflexivity|reflexivity].
  destruct (match sb_pos sb2 with Some _ => _ | None => _ end) as [sb3|e|u]; cbn [bind]; [|reflexivity|reflexivity].
  erewrite sb_append_ext; [|intros b' n'; apply c_addrs_str_ok; lia]. destruct (sb_append sb3 _) as [sb4|e|u]; cbn [bind]; [|reflexivity|reflexivity].
  rewrite !lb_ok by lia. rewrite !ln_ok by (rewrite B_8; lia). reflexivity.
Qed.
Lemma when_put (c : bool) x f out o : E room (f tt) (out ++ (if c then x else [])) o -> E room (bindm (when c (put room x)) f) out o.
Proof. destruct c; cbn [when]; [apply E_put|]. rewrite app_nil_r. trivial. Qed.
Lemma when_load {A} (c : bool) (r : res A) v (x : A -> mm unit) f out o : r = Ok v -> E room (bindm (when c (x v)) f) out o -> E room (bindm (when c (bindm (lift r) x)) f) out o.
Proof. intros ->. trivial. Qed.
Lemma E_test (p q : bool) out f o1 o2 : (q = p -> E room f out o2) -> o1 = (out, Some EINVAL) -> E room (if negb (eqb p q) then fail else f) out (if negb (eqb p q) then o1 else o2).
Proof. intros H ->. destruct p, q; cbn [eqb negb]; auto using E_fail. Qed.
Lemma e_ohc : encodes KOhc.
Proof.
  bases. slim. intros L _. cbn [c_enc_prog enc_of c_val ktype] in *. layout 14%nat Y. layout 0%nat A. rewrite B_bool, B_8, B_16, B_32 in Y. rewrite B_bool in A. unfold c_enc_ohc, enc_ohc. cbv zeta.
  cbn [oh_desc oh_teidp oh_teid oh_addr oh_portp oh_port oh_ctagp oh_ctag oh_stagp oh_stag]. unfold v_addrs. cbn [ia_v4p ia_v4 ia_v6p ia_v6].
  unfold c_enc_bits. apply E_assoc. eapply E_lift; [apply peek_get; lia|]. apply E_put. cbn [app].
  rewrite (peek_get mem (fo te OHC "desc_bits") 2) by lia. pose proof (get_len (fo te OHC "desc_bits") 2 mem ltac:(lia)) as Ld. revert Ld. generalize (get_at (fo te OHC "desc_bits") 2 mem). intros d Ld.
  destruct d as [|b1 [|b2 [|b3 d]]]; try discriminate Ld. 2: { exfalso. unfold lenN in Ld. cbn [length] in Ld. lia. }
  assert (BG : forall i, i < 8 -> bits_get [b1; b2] i = Ok (negb (N.land b1 (2 ^ (i mod 8)) =? 0))).
  { intros i Hi. unfold bits_get. rewrite (N.div_small i 8) by exact Hi. reflexivity. }
  unfold oh_bits. rewrite !BG by reflexivity. cbn [bind]. do 8 (eapply E_lift; [apply BG; reflexivity|]).
  generalize (negb (N.land b1 (2 ^ (0 mod 8)) =? 0)) (negb (N.land b1 (2 ^ (1 mod 8)) =? 0)) (negb (N.land b1 (2 ^ (2 mod 8)) =? 0)) (negb (N.land b1 (2 ^ (3 mod 8)) =? 0))
    (negb (N.land b1 (2 ^ (4 mod 8)) =? 0)) (negb (N.land b1 (2 ^ (5 mod 8)) =? 0)) (negb (N.land b1 (2 ^ (6 mod 8)) =? 0)) (negb (N.land b1 (2 ^ (7 mod 8)) =? 0)).
  intros gtp4 gtp6 udp4 udp6 ip4 ip6 ctag stag. generalize (gtp4 || gtp6) (gtp4 || udp4 || ip4) (gtp6 || udp6 || ip6) (udp4 || udp6). intros c1 c2 c3 c4. clear BG gtp4 gtp6 udp4 udp6 ip4 ip6 Ld.
  generalize [b1; b2]. intros d. clear b1 b2.
  eapply E_lift; [apply lb_ok; lia|]. apply E_test; [|reflexivity]. intros Q1. eapply when_load; [apply ln_ok; rewrite B_32; lia|]. apply when_put.
  eapply E_lift; [apply lb_ok; lia|]. apply E_test; [|reflexivity]. intros Q2. eapply when_load; [apply ls_ok; lia|]. apply when_put. rewrite Q2.
  eapply E_lift; [apply lb_ok; lia|]. apply E_test; [|reflexivity]. intros Q3. eapply when_load; [apply ls_ok; lia|]. apply when_put. rewrite Q3.
  eapply E_lift; [apply lb_ok; lia|]. apply E_test; [|reflexivity]. intros Q4. eapply when_load; [apply ln_ok; rewrite B_16; lia|]. apply when_put. rewrite Q4.
  eapply E_lift; [apply lb_ok; lia|]. apply E_test; [|reflexivity]. intros Q5. eapply when_load; [apply ln_ok; rewrite B_32; lia|]. apply when_put. rewrite Q5.
  eapply E_lift; [apply lb_ok; lia|]. apply E_test; [|reflexivity]. intros Q6. apply E_end. eapply when_load; [apply ln_ok; rewrite B_32; lia|]. apply when_put. rewrite Q6. apply E_ret.
Qed.
Lemma p_ohc : prints KOhc.
Proof.
  bases. slim. intros L b n. cbn [c_to_str ie_to_str c_val ktype] in *. layout 14%nat Y. layout 0%nat A. rewrite B_bool, B_8, B_16, B_32 in Y. rewrite B_bool in A. unfold c_ohc_str, ohc_to_str. cbv zeta.
  cbn [oh_desc oh_teidp oh_teid oh_addr oh_portp oh_port oh_ctagp oh_ctag oh_stagp oh_stag].
  erewrite sb_append_ext; [|intros b' n'; apply c_bits_str_ok; lia]. destruct (sb_append (sb_init b n) _) as [sb|e|u]; cbn [bind]; [|reflexivity|reflexivity].
  rewrite (lb_ok (fo te OHC "teid_present")) by lia. rewrite (ln_ok "uint32_t" (fo te OHC "teid")) by (rewrite B_32; lia). cbn [bind].
  destruct (if vb (fo te OHC "teid_present") mem then _ else _) as [sb1|e|u]; cbn [bind]; [|reflexivity|reflexivity]. destruct (sb_printf sb1 _) as [sb2|e|u]; cbn [bind]; [|reflexivity|reflexivity].
  erewrite sb_append_ext; [|intros b' n'; apply c_addrs_str_ok; lia]. destruct (sb_append sb2 _) as [sb3|e|u]; cbn [bind]; [|reflexivity|reflexivity].
  rewrite !lb_ok by lia. rewrite !ln_ok by (rewrite ?B_32, ?B_16; lia). reflexivity.
Qed.
Lemma unended k : lenN mem = sz te (ktype k) -> 1 <= room -> ~ strings_end te be k mem -> exists out, c_enc te be sa_rd mem room k = (out, UB OobRead).
Proof.
  bases. intros L R HN. unfold c_enc. destruct k; try (contradiction HN; exact I); cbn [c_enc_prog ktype strings_end] in *.
  - layout 1%nat U. layout 2%nat Y. apply Forall_cons_iff in U. destruct U as [[U1 U2] U]. apply Forall_cons_iff in U. destruct U as [[U3 U4] _].
    cbn [mb_name mb_arr mb_type] in U1, U2, U3, U4. rewrite B_char in U4. unfold c_enc_node_id. cbv zeta. unfold bindm at 1. unfold lift at 1. rewrite ln_ok by lia.
    set (t := vn _ (fo te NODE_ID "type") mem) in *. destruct (N.eqb_spec t 2) as [E2|N2]; [|contradiction HN; intros K; contradiction]. rewrite E2. unfold bindm, put_u8, put. change (lenN [] + lenN (be_put 1 2)) with 1.
    destruct (N.ltb_spec room 1); [lia|]. change (2 =? 0) with false. change (2 =? 1) with false. cbv iota. eexists. apply put_name_bad; [lia|]. intros K. apply HN. intros _. exact K.
  - layout 12%nat Y. rewrite B_char in Y. eexists. apply put_name_bad; [lia|exact HN].
  - layout 13%nat Y. rewrite B_char in Y. unfold c_enc_act_predef, bindm, lift. rewrite (l_str_bad mem 256) by (lia || exact HN). eexists. reflexivity.
Qed.
(* whatever the room *)
Lemma unended_any k : lenN mem = sz te (ktype k) -> ~ strings_end te be k mem -> exists out u, c_enc te be sa_rd mem room k = (out, UB u).
Proof.
  intros L HN. destruct (N.leb_spec 1 room) as [R|R]; [destruct (unended k L R HN) as (out & E); exists out, OobRead; exact E|].
  bases. unfold c_enc. destruct k; try (contradiction HN; exact I); cbn [c_enc_prog ktype strings_end] in *.
  - layout 1%nat U. layout 2%nat Y. apply Forall_cons_iff in U. destruct U as [[U1 U2] U]. apply Forall_cons_iff in U. destruct U as [[U3 U4] _].
    cbn [mb_name mb_arr mb_type] in U1, U2, U3, U4. rewrite B_char in U4. unfold c_enc_node_id. cbv zeta. unfold bindm at 1. unfold lift at 1. rewrite ln_ok by lia.
    set (t := vn _ (fo te NODE_ID "type") mem) in *. unfold bindm, put_u8, put. assert (E1 : lenN (@nil N) + lenN (be_put 1 t) = 1) by reflexivity. rewrite E1.
    destruct (N.ltb_spec room 1); [|lia]. eexists _, _. reflexivity.
  - layout 12%nat Y. rewrite B_char in Y. eexists _, _. apply put_name_bad; [lia|exact HN].
  - layout 13%nat Y. rewrite B_char in Y. unfold c_enc_act_predef, bindm, lift. rewrite (l_str_bad mem 256) by (lia || exact HN). eexists _, _. reflexivity.
Qed.
(* what the loaded values look like *)
Lemma val_typed k : lenN mem = sz te (ktype k) -> sockaddr_typed te sa_rd -> typed_ie k (c_val te be sa_rd k mem).
Proof.
  bases. slim. intros L HS. assert (S1 : forall a, a + SA <= lenN mem -> typed_sa (vs a mem)) by (intros a Ha; apply HS, get_len, Ha).
  destruct k; cbn [c_val typed_ie ktype] in *; try exact I.
  - layout 1%nat U. layout 2%nat Y. apply Forall_cons_iff in U. destruct U as [[U1 U2] _]. cbn [mb_name mb_arr mb_type] in U1, U2. destruct (_ =? 0); [apply S1; lia|]. destruct (_ =? 1); [apply S1; lia|]. destruct (_ =? 2); exact I.
  - layout 3%nat Y. rewrite B_8 in Y. apply get_len. lia.
  - layout 4%nat Y. rewrite B_8 in Y. apply get_len. lia.
  - layout 5%nat Y. layout 0%nat A. split; cbn [fs_addr v_addrs ia_v4 ia_v6]; apply S1; lia.
  - layout 9%nat Y. layout 8%nat U. layout 6%nat X. layout 0%nat A. apply Forall_cons_iff in U. destruct U as [[U1 U2] _]. cbn [mb_name mb_arr mb_type] in U1, U2. destruct (vb _ mem); [exact I|].
    split; cbn [v_addrs ia_v4 ia_v6]; apply S1; lia.
  - layout 11%nat Y. rewrite B_8 in Y. apply get_len. lia.
  - layout 14%nat Y. layout 0%nat A. rewrite B_8 in Y. split; [apply get_len; lia|]. split; cbn [oh_addr v_addrs ia_v4 ia_v6]; apply S1; lia.
  - layout 15%nat Y. rewrite B_8 in Y. apply get_len. lia.
  - layout 10%nat Y. layout 0%nat A. split; cbn [ue_addr v_addrs ia_v4 ia_v6]; apply S1; lia.
Qed.
Lemma val_printable k : lenN mem = sz te (ktype k) -> printable k (c_val te be sa_rd k mem).
Proof.
  bases. slim. intros L. assert (G : forall a n, a + n <= lenN mem -> length (get_at a n mem) = N.to_nat n) by (intros a n H; apply get_len in H; unfold lenN in H; lia).
  destruct k; cbn [c_val printable ktype] in *; try exact I.
  - layout 3%nat Y. rewrite B_8 in Y. apply G. lia.
  - layout 4%nat Y. rewrite B_8 in Y. apply G. lia.
  - layout 11%nat Y. rewrite B_8 in Y. apply G. lia.
  - layout 14%nat Y. rewrite B_8 in Y. apply G. lia.
  - layout 15%nat Y. rewrite B_8 in Y. apply G. lia.
Qed.
(* a decoded string ends within its array *)
Lemma short_ends l : lenN (c_str l) < lenN l -> In 0 l.
Proof.
  induction l as [|x l IH]; cbn [c_str]; intros H; [exfalso; change (lenN []) with 0 in H; lia|]. destruct (N.eqb_spec x 0) as [->|NX]; [left; reflexivity|]. right. apply IH. rewrite !lenN_cons in H. lia.
Qed.
Theorem all_encode k : encodes k.
Proof.
  destruct k; [exact (e_num KCause)|exact (e_num KOffendingIe)|exact (e_num K8)|exact (e_num K16)|exact (e_num K32)|exact (e_num K3gppIface)|exact (e_num KSrcIface)|exact (e_num KDstIface)|exact e_node
  |exact (e_bits KUpFF)|exact (e_bits KCpFF)|exact e_fseid|exact e_fteid|exact (e_bits KApplyAction)|exact (e_str KNetInst)|exact e_ohc|exact (e_str KActPredef)|exact e_ohr|exact e_ueip].
Qed.
Theorem all_print k : prints k.
Proof.
  destruct k; [exact (p_num KCause)|exact (p_num KOffendingIe)|exact (p_num K8)|exact (p_num K16)|exact (p_num K32)|exact (p_num K3gppIface)|exact (p_num KSrcIface)|exact (p_num KDstIface)|exact p_node
  |exact (p_bits KUpFF)|exact (p_bits KCpFF)|exact p_fseid|exact p_fteid|exact (p_bits KApplyAction)|exact (p_str KNetInst)|exact p_ohc|exact (p_str KActPredef)|exact p_ohr|exact p_ueip].
Qed.
End Sim.
