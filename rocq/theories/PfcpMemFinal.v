(* PfcpMemFinal.v -- the generated PFCP tables on the union of the generated structs: decode, encode, print, round trip *)
From Coq Require Import String Ascii.
From Verif Require Import Base BaseProofs GtlvModel GtlvSpec DecEncModel DecEncSpec DecEncProofs DecOrdProofs DecCharProofs CStr IesModel IesSpec IesProofs TablesModel
  MsgModel MsgSpec MsgProofs StrModel MemModel MemSpec MemProofs MemEncProofs MemTest MemFinal GenModel GenSpec GenProofs GenTabProofs GenPfcp GenPfcpProofs
  PfcpMem PfcpMemProofs.
Local Open Scope string_scope.
Local Open Scope N_scope.
Local Open Scope list_scope.

(* ---------------------------------------------------------------- renaming of kinds in the string tables *)
Fixpoint tmap {K K'} (g : K -> K') (t : tcoding K) : tcoding K' :=
  match t with TLeaf h k => TLeaf h (g k) | TNest h ies => TNest h (map (tmap g) ies) end.
Lemma tcoding_ind' {K} (P : tcoding K -> Prop) : (forall h k, P (TLeaf h k)) -> (forall h ies, Forall P ies -> P (TNest h ies)) -> forall t, P t.
Proof.
  intros H1 H2. fix IH 1. intros [h k|h ies]; [apply H1|]. apply H2. induction ies as [|i ies IHl]; constructor; [apply IH|exact IHl].
Qed.
Section Tmap.
Context {V K K' : Type}.
Variable lf : K' -> option (V -> strfn).
Variable g : K -> K'.
Variable names : N -> list N.
Lemma thead_tmap (t : tcoding K) : thead (tmap g t) = thead t.
Proof. destruct t; reflexivity. Qed.
Definition same_entry (a b : tentry V) : Prop := te_h a = te_h b /\ forall sb v, te_put a sb v = te_put b sb v.
Lemma ts_vals_same a b : same_entry a b -> forall vals sb i, ts_vals a sb i vals = ts_vals b sb i vals.
Proof.
  intros [H1 H2]. induction vals as [|v vals IH]; intros sb i; [reflexivity|]. cbn [ts_vals]. rewrite H1. destruct (match h_multi _ with Some _ => _ | None => _ end); [reflexivity|].
  destruct (if 0 <? i then sb_printf sb (str ", ") else Ok sb) as [s| |]; [|reflexivity|reflexivity]. cbn [bind]. rewrite H2. destruct (te_put b s v); [|reflexivity|reflexivity]. cbn [bind]. apply IH.
Qed.
Lemma ts_entries_same es es' : Forall2 same_entry es es' -> forall slots sb, ts_entries names es slots sb = ts_entries names es' slots sb.
Proof.
  induction 1 as [|a b es es' H HF IH]; intros [|s slots] sb; try reflexivity. cbn [ts_entries]. pose proof H as [H1 _]. rewrite H1. cbv zeta.
  destruct (to_encode (te_h b) s); [apply IH|]. repeat match goal with |- bind ?x _ = bind ?x _ => destruct x; cbn [bind]; [|reflexivity|reflexivity] end.
  rewrite (ts_vals_same a b H). destruct (ts_vals b _ 0 _) as [[sb'|]| |]; cbn [bind]; [|reflexivity|reflexivity|reflexivity].
  repeat match goal with |- bind ?x _ = bind ?x _ => destruct x; cbn [bind]; [|reflexivity|reflexivity] end. apply IH.
Qed.
Lemma ts_put_tmap (t : tcoding K) : forall sb v, ts_put (fun k => lf (g k)) names t sb v = ts_put lf names (tmap g t) sb v.
Proof.
  induction t as [h k|h ies IH] using tcoding_ind'; intros sb [x|slots]; try reflexivity. cbn [ts_put tmap].
  destruct (sb_printf sb (str "{")) as [sb'| |]; [|reflexivity|reflexivity]. cbn [bind].
  assert (HE : forall b n, ts_entries names (map (fun d => mkTEntry (thead d) (ts_put (fun k => lf (g k)) names d)) ies) slots (sb_init b n)
               = ts_entries names (map (fun d => mkTEntry (thead d) (ts_put lf names d)) (map (tmap g) ies)) slots (sb_init b n)).
  { intros b n. apply ts_entries_same. rewrite map_map. induction IH as [|d ies Hd HF IHl]; constructor; [|exact IHl]. split; [symmetry; apply thead_tmap|exact Hd]. }
  unfold sb_append. destruct (sb_pos sb'); repeat (rewrite HE || (destruct (_ : res _); cbn [bind]; try reflexivity)).
Qed.
Lemma to_str_tmap ies slots b n : gtlvs_to_str (fun k => lf (g k)) names (Some ies) slots b n = gtlvs_to_str lf names (Some (map (tmap g) ies)) slots b n.
Proof.
  cbn [gtlvs_to_str]. apply ts_entries_same. rewrite map_map. induction ies as [|d ies IH]; constructor; [|exact IH].
  split; [symmetry; apply thead_tmap|apply ts_put_tmap].
Qed.
End Tmap.

(* ---------------------------------------------------------------- the tables of one message *)
Definition k_of (l : leaf kind) : kind := match lf_dec l with Some d => match d [] 0 with Ok k => k | _ => K8 end | None => K8 end.
Fixpoint tc_of (c : coding kind) : tcoding kind :=
  match c with CLeaf h l => TLeaf h (k_of l) | CNest h _ _ ies => TNest h (map tc_of ies) end.
Lemma tc_erase (d : mcoding fns) : tc_of (erase kleaf d) = tmap kind_of (erase_str d).
Proof.
  induction d as [h k|h sz nc o ies IH] using mcoding_ind'; [reflexivity|]. cbn [erase tc_of erase_str tmap]. f_equal. rewrite !map_map.
  induction IH as [|d ies Hd HF IHl]; [reflexivity|]. cbn [map]. f_equal; [exact Hd|exact IHl].
Qed.
Lemma tc_ktab p : tc_of (ktab p) = ttab p.
Proof.
  induction p as [h k|h l IH] using pcoding_ind'; [reflexivity|]. cbn [ktab tc_of ttab]. f_equal. rewrite map_map.
  induction IH as [|d ies Hd HF IHl]; [reflexivity|]. cbn [map]. f_equal; [exact Hd|exact IHl].
Qed.
Lemma ptab_unordered p : all_unordered (ptab p).
Proof.
  induction p as [h k|h l IH] using pcoding_ind'; cbn; [exact I|]. split; [discriminate|]. apply fold_right_and_Forall. rewrite Forall_map. exact IH.
Qed.

Lemma all_tables_imp {V} (P Q : list (coding V) -> Prop) ies : (forall l, P l -> Q l) -> all_tables P ies -> all_tables Q ies.
Proof.
  intros HPQ [H1 H2]. split; [exact (HPQ _ H1)|]. eapply Forall_impl; [|exact H2]. clear - HPQ. intros d.
  induction d as [h l|h nc o ies IH] using coding_ind'; cbn; [trivial|].
  intros [H1 H2]. split; [exact (HPQ _ H1)|]. apply fold_right_and_Forall in H2. apply fold_right_and_Forall. rewrite Forall_forall in *. auto.
Qed.

(* ---------------------------------------------------------------- headers, compiler and leaf functions that fit *)
Definition pfcp_host (te0 : tenv) (r : generated) (lk : fns -> mleaf) (ld : fns -> list N -> iev) (T : texts) : Prop :=
  pfcp_env te0 /\ gen_and_compile pfcp_cfg te0 pfcp_ce pfcp_msgs = Some r /\ sizes_agree te0 lk /\ gen_union_size pfcp_cfg r < 2 ^ 32
  /\ (forall f, dec_ok lk pfcp_leaf ld f) /\ (forall f, enc_ok lk pfcp_leaf ld f)
  /\ (forall f, str_ok lk (fun f => Some (ie_to_str T (kind_of f))) ld f).
(* the union holds the message of type t with these IE values *)
Definition union_holds (r : generated) (lk : fns -> mleaf) (ld : fns -> list N -> iev) (be : bool) (t : N) (dm : list N) (slots : list (slot iev)) : Prop :=
  lenN dm = gen_union_size pfcp_cfg r
  /\ match defs_get (gr_defs r) t with Some ies => struct_held lk ld be true ies 0 dm slots | None => False end.

Section Host.
Variable te0 : tenv.
Variable r : generated.
Variable lk : fns -> mleaf.
Variable ld : fns -> list N -> iev.
Variable T : texts.
Variable be : bool.
Hypothesis HH : pfcp_host te0 r lk ld T.
Notation usz := (gen_union_size pfcp_cfg r).

Lemma host_env : pfcp_env te0. Proof. exact (proj1 HH). Qed.
Lemma host_gen : gen_and_compile pfcp_cfg te0 pfcp_ce pfcp_msgs = Some r. Proof. exact (proj1 (proj2 HH)). Qed.
Lemma host_small : usz < 2 ^ 32. Proof. destruct HH as (_ & _ & _ & H & _). exact H. Qed.
Lemma host_layout t ies : defs_get (gr_defs r) t = Some ies -> layout_ok lk usz ies.
Proof.
  intros H. destruct HH as (HE & HG & HS & _). destruct (pfcp_generated te0 HE) as (r' & u & HG' & _ & HU & _ & _ & HL & _). assert (r' = r) by congruence. subst r'.
  unfold gen_union_size. change (msg_union pfcp_cfg) with "union osmo_pfcp_ies". rewrite HU. exact (HL t ies lk H HS).
Qed.
Lemma host_table t : option_map (map (erase pfcp_leaf)) (defs_get (gr_defs r) t) = msg_table t.
Proof. exact (inst_get te0 host_env r host_gen t). Qed.
Lemma host_texts t : option_map (map (fun d => tmap kind_of (erase_str d))) (defs_get (gr_defs r) t) = option_map (map ttab) (get_msg_coding t).
Proof.
  pose proof (inst_kind_get te0 host_env r host_gen t) as H. apply (f_equal (option_map (map tc_of))) in H.
  destruct (defs_get (gr_defs r) t) as [ies|], (get_msg_coding t) as [ps|]; cbn [option_map] in *; try discriminate; [|reflexivity].
  injection H as H. rewrite !map_map in H. rewrite (map_ext _ _ tc_erase), (map_ext _ _ tc_ktab) in H. rewrite H. reflexivity.
Qed.
Lemma zero_bytes_at (dm : list N) : lenN dm = usz -> Forall (fun b => b = 0) dm -> exists l, bytes_at 0 usz dm l /\ Forall (fun b => b = 0) l.
Proof. intros HL HZ. exists dm. split; [exists [], []; rewrite app_nil_r; auto|exact HZ]. Qed.

Theorem pfcp_decode_mem t d rest dm : bytes_ok (d ++ rest) -> In 0 rest -> lenN dm = usz -> Forall (fun b => b = 0) dm ->
  match decode_tlv t (d ++ rest) (lenN d) with
  | Ok slots => exists dm', gen_ies_decode pfcp_cfg r lk be t16l16v false t (d ++ rest) (lenN d) dm = (dm', Ok tt) /\ union_holds r lk ld be t dm' slots
  | Err e => exists dm', gen_ies_decode pfcp_cfg r lk be t16l16v false t (d ++ rest) (lenN d) dm = (dm', Err e) /\ lenN dm' = usz
  | UB _ => False
  end.
Proof.
  intros HB HR HL HZ. pose proof (decode_tlv_safe t d rest HR) as HU. unfold decode_tlv in *. rewrite <- host_table in *. unfold gen_ies_decode, union_holds.
  pose proof (host_layout t) as HLy. pose proof (host_table t) as HT. destruct (defs_get (gr_defs r) t) as [ies|]; cbn [option_map] in *; [|exists dm; auto].
  specialize (HLy ies eq_refl). destruct HH as (_ & _ & _ & HS & HD & _).
  pose proof (decode_refines lk pfcp_leaf ld be usz HS HD usz ies t16l16v false 0 (d ++ rest) (lenN d) dm HB HLy HL (N.le_refl _) (zero_bytes_at dm HL HZ)) as H.
  destruct (gtlvs_decode t16l16v false (Some (map (erase pfcp_leaf) ies)) (d ++ rest) (lenN d)) as [slots|e|u] eqn:E; [| |discriminate HU].
  - destruct H as (dm' & E1 & [HL' _] & HS'). exists dm'. split; [exact E1|]. split; [congruence|]. apply (strict_struct lk pfcp_leaf); [|exact HS'].
    unfold msg_table in HT. destruct (get_msg_coding t) as [ps|] eqn:Et; [|discriminate]. cbn [option_map] in HT. injection HT as HT. rewrite HT in *.
    apply (gtlvs_decode_counts t16l16v (map ptab ps) (d ++ rest) (lenN d)); [| |exact E].
    + rewrite Forall_map. apply Forall_forall. intros p _. apply ptab_unordered.
    + apply (all_tables_imp table_ok); [intros l Hl; apply Hl|]. exact (proj1 (tables_are_good t ps Et)).
  - destruct H as (dm' & E1 & [HL' _]). exists dm'. split; [exact E1|congruence].
Qed.
Theorem pfcp_encode_mem t dm slots cap buf : union_holds r lk ld be t dm slots ->
  gen_ies_encode pfcp_cfg r lk be dm t t16l16v cap buf = encode_tlv cap buf t slots.
Proof.
  intros [HL HU]. unfold gen_ies_encode, encode_tlv. rewrite <- host_table. pose proof (host_layout t) as HLy.
  destruct (defs_get (gr_defs r) t) as [ies|]; [|destruct HU]. cbn [option_map]. specialize (HLy ies eq_refl). destruct HH as (_ & _ & _ & HS & _ & HE & _).
  exact (encode_refines lk ld be usz HS dm HL pfcp_leaf HE usz ies t16l16v cap 0 buf slots HLy (N.le_refl _) HU).
Qed.
Theorem pfcp_print_mem t dm slots b n : union_holds r lk ld be t dm slots ->
  gen_ies_to_str pfcp_cfg r lk be dm t (tx_iei T) b n = ies_to_str T t slots b n.
Proof.
  intros [HL HU]. unfold gen_ies_to_str, ies_to_str. rewrite <- host_texts. pose proof (host_layout t) as HLy.
  destruct (defs_get (gr_defs r) t) as [ies|]; [|destruct HU]. cbn [option_map]. specialize (HLy ies eq_refl). destruct HH as (_ & _ & _ & HS & _ & _ & HP).
  rewrite (to_str_refines lk ld be usz HS dm HL (fun f => Some (ie_to_str T (kind_of f))) (tx_iei T) HP usz ies 0 slots b n HLy (N.le_refl _) HU).
  rewrite (to_str_tmap (fun k => Some (ie_to_str T k)) kind_of). rewrite map_map. reflexivity.
Qed.
Theorem pfcp_no_table t dm : get_msg_coding t = None -> lenN dm = usz ->
  (forall m len, gen_ies_decode pfcp_cfg r lk be t16l16v false t m len dm = (dm, Err ENOTSUP))
  /\ (forall cap buf, gen_ies_encode pfcp_cfg r lk be dm t t16l16v cap buf = EErr buf ENOTSUP).
Proof.
  intros Ht HL. pose proof (host_table t) as HT. unfold msg_table in HT. rewrite Ht in HT. unfold gen_ies_decode, gen_ies_encode.
  destruct (defs_get (gr_defs r) t); [discriminate|]. split; [reflexivity|]. intros cap buf. cbn [mgtlvs_encode].
  destruct (pfcp_generated te0 host_env) as (r' & u & HG' & _ & HU & _ & _ & _ & HP). pose proof host_gen as HG. assert (r' = r) by congruence. subst r'.
  assert (E : 0 < usz) by (unfold gen_union_size; change (msg_union pfcp_cfg) with "union osmo_pfcp_ies"; rewrite HU; exact HP).
  unfold membof. apply N.ltb_lt in E. rewrite E. reflexivity.
Qed.
Theorem pfcp_roundtrip_mem t ies slots bs dm dm2 buf cap rest : get_msg_coding t = Some ies -> valid_struct ies slots -> wire_struct ies slots bs ->
  lenN bs <= 65535 -> lenN buf + lenN bs <= cap -> bytes_ok (bs ++ rest) -> In 0 rest ->
  union_holds r lk ld be t dm slots -> lenN dm2 = usz -> Forall (fun b => b = 0) dm2 ->
  gen_ies_encode pfcp_cfg r lk be dm t t16l16v cap buf = EOk (buf ++ bs)
  /\ exists dm', gen_ies_decode pfcp_cfg r lk be t16l16v false t (bs ++ rest) (lenN bs) dm2 = (dm', Ok tt) /\ union_holds r lk ld be t dm' slots.
Proof.
  intros Ht Hv Hw Hl Hc HB HR HU HL HZ. split.
  - rewrite (pfcp_encode_mem t dm slots cap buf HU). exact (encode_tlv_wire t ies slots bs buf cap Ht Hv Hw Hl Hc).
  - pose proof (pfcp_decode_mem t bs rest dm2 HB HR HL HZ) as H. rewrite (decode_tlv_wire t ies slots bs rest Ht Hv Hw Hl HR) in H. exact H.
Qed.
End Host.

(* ---------------------------------------------------------------- the headers of PfcpMem.v *)
Lemma p_base_aligns : aligns p_te0.
Proof.
  intros t ty H. unfold p_te0 in H.
  assert (G : forall l, forallb (fun e : string * tyinfo => 0 <? ty_align (snd e)) l = true -> forall t ty, get t l = Some ty -> 0 < ty_align ty).
  { clear. induction l as [|[n x] l IH]; intros G t ty H; [discriminate|]. cbn [forallb snd] in G. apply andb_true_iff in G as [G1 G2]. rewrite get_cons in H.
    destruct (String.eqb _ _); [injection H as <-; apply N.ltb_lt; exact G1|eauto]. }
  exact (G p_base eq_refl t ty H).
Qed.
Lemma cc_hitem_aligns te h te' : aligns te -> cc_hitem te h = Some te' -> aligns te'.
Proof.
  intros HA H. unfold cc_hitem in H. destruct h as [t ms|t ms]; (destruct (te t); [discriminate|]); ob H ty Hty; injection H as <-; (apply bindty_aligns; [|exact HA]).
  - apply (struct_spec te ms ty HA Hty).
  - apply (lay_union_spec te ms HA _ _ _ _ Hty); [reflexivity|discriminate].
Qed.
Lemma cc_h_aligns hs : forall te te', aligns te -> cc_h te hs = Some te' -> aligns te'.
Proof.
  induction hs as [|h hs IH]; intros te te' HA H; cbn [cc_h] in H; [injection H as <-; exact HA|]. ob H te1 H1. eapply IH; [|exact H]. eapply cc_hitem_aligns; eassumption.
Qed.
Lemma p_te_aligns : aligns p_te.
Proof. unfold p_te. destruct (cc_h p_te0 custom_h) as [te|] eqn:E; [exact (cc_h_aligns _ _ _ p_base_aligns E)|discriminate]. Qed.
Lemma p_env : pfcp_env p_te.
Proof.
  split; [eexists; split; [vm_compute; reflexivity|reflexivity]|]. split; [eexists; split; [vm_compute; reflexivity|reflexivity]|]. split; [exact p_te_aligns|]. split.
  - apply (forall_b (fun t => match p_te t with Some ty => 0 <? ty_size ty | None => false end)); [|vm_compute; reflexivity].
    intros t Ht. destruct (p_te t) as [ty|]; [|discriminate]. exists ty. split; [reflexivity|apply N.ltb_lt; exact Ht].
  - apply (forall_b (fun t => negb (somb (p_te t)))); [|vm_compute; reflexivity]. intros t Ht. destruct (p_te t); [discriminate|reflexivity].
Qed.
Lemma get_in {A} n (l : list (string * A)) x : get n l = Some x -> In (n, x) l.
Proof.
  induction l as [|[m y] l IH]; [discriminate|]. rewrite get_cons. destruct (String.eqb_spec m n); [intros E; injection E as ->; subst; left; reflexivity|]. intros E. right. auto.
Qed.
Lemma type_of_kind f t : type_of f = Some t -> In (fn_dec f, (kind_of f, t)) pfcp_funcs.
Proof.
  unfold type_of, kind_of. intros H. apply get_in. destruct (get (fn_dec f) pfcp_funcs) as [[k s]|]; [|discriminate]. injection H as ->. reflexivity.
Qed.
Lemma sizes_by_table te be T :
  forallb (fun e : string * (kind * string) => match te (snd (snd e)) with Some ty => cd_size (p_codec be (fst (snd e))) =? ty_size ty | None => false end) pfcp_funcs = true ->
  sizes_agree te (p_lk be T).
Proof.
  intros G f t ty Ht Hty. apply type_of_kind in Ht. rewrite forallb_forall in G. specialize (G _ Ht). cbn [fst snd] in G.
  rewrite Hty in G. apply N.eqb_eq in G. exact G.
Qed.
Lemma p_sizes be T : sizes_agree p_te (p_lk be T).
Proof. apply sizes_by_table. destruct be; vm_compute; reflexivity. Qed.
Definition p_gen : option generated := gen_and_compile pfcp_cfg p_te pfcp_ce pfcp_msgs.
Definition the_gen (o : option generated) : generated := match o with Some r => r | None => mkGen (fun _ => None) [] end.
Lemma the_gen_some (o : option generated) r : o = Some r -> o = Some (the_gen o).
Proof. intros ->. reflexivity. Qed.
Definition p_r : generated := the_gen p_gen.
Lemma gen_some te0 : pfcp_env te0 -> gen_and_compile pfcp_cfg te0 pfcp_ce pfcp_msgs = Some (the_gen (gen_and_compile pfcp_cfg te0 pfcp_ce pfcp_msgs)).
Proof. intros HE. destruct (pfcp_generated te0 HE) as (r & _ & H & _). exact (the_gen_some _ r H). Qed.
Lemma p_gen_some : gen_and_compile pfcp_cfg p_te pfcp_ce pfcp_msgs = Some p_r.
Proof. exact (gen_some p_te p_env). Qed.
Lemma p_union_size : gen_union_size pfcp_cfg p_r = 110600.
Proof. vm_compute. reflexivity. Qed.
Lemma host_of_codecs te0 r (cd : kind -> codec iev) T : pfcp_env te0 -> gen_and_compile pfcp_cfg te0 pfcp_ce pfcp_msgs = Some r ->
  sizes_agree te0 (fun f => of_codec (cd (kind_of f)) (pfcp_leaf f) (Some (ie_to_str T (kind_of f)))) -> gen_union_size pfcp_cfg r < 2 ^ 32 ->
  (forall k, codec_ok (cd k) (leaf_of k)) ->
  pfcp_host te0 r (fun f => of_codec (cd (kind_of f)) (pfcp_leaf f) (Some (ie_to_str T (kind_of f)))) (fun f => cd_get (cd (kind_of f))) T.
Proof.
  intros HE HG HS HU HC. unfold pfcp_host. split; [exact HE|]. split; [exact HG|]. split; [exact HS|]. split; [exact HU|]. split; [|split]; intros f.
  - exact (of_codec_dec pfcp_leaf (fun f => Some (ie_to_str T (kind_of f))) (fun f => cd (kind_of f)) f (HC (kind_of f))).
  - exact (of_codec_enc pfcp_leaf (fun f => Some (ie_to_str T (kind_of f))) (fun f => cd (kind_of f)) f).
  - exact (of_codec_str pfcp_leaf (fun f => Some (ie_to_str T (kind_of f))) (fun f => cd (kind_of f)) f).
Qed.
Lemma p_small : gen_union_size pfcp_cfg p_r < 2 ^ 32.
Proof. rewrite p_union_size. reflexivity. Qed.
Lemma p_host be T : pfcp_host p_te p_r (p_lk be T) (p_ld be) T.
Proof. exact (host_of_codecs p_te p_r (p_codec be) T p_env p_gen_some (p_sizes be T) p_small (p_codec_ok be)). Qed.

(* ---------------------------------------------------------------- the arrays of the IE structs *)
(* the array member of the struct of an IE *)
Definition arrays : list (kind * string * string) := [
  (KNodeId, "node_id.u", "fqdn"); (KNetInst, "struct osmo_pfcp_ie_network_inst", "str"); (KActPredef, "struct osmo_pfcp_ie_activate_predefined_rules", "str");
  (KUpFF, "struct osmo_pfcp_ie_up_function_features", "bits"); (KCpFF, "struct osmo_pfcp_ie_cp_function_features", "bits");
  (KApplyAction, "struct osmo_pfcp_ie_apply_action", "bits"); (KOhc, "struct osmo_pfcp_ie_outer_header_creation", "desc_bits");
  (KOhr, "struct osmo_pfcp_ie_outer_header_removal", "gtp_u_extension_header_del_bits") ].
(* the bytes it needs: texts with their NUL *)
Definition array_len (x : iev) : N :=
  match x with
  | IvStr s | IvNode (NodeFqdn s) => lenN s + 1
  | IvBits l => lenN l
  | IvOhc x => lenN (oh_desc x)
  | IvOhr x => lenN (or_ext x)
  | _ => 0
  end.
Lemma arrays_suffice k v rest x T n : bytes_ok v -> (k = KActPredef -> In 0 rest) -> dec_of k (v ++ rest) (lenN v) = Ok x -> In (k, T, n) arrays ->
  exists o f, offset_of p_te T None n = Some (o, f) /\ array_len x <= fi_size f.
Proof.
  intros Hb Hz E Hin.
  assert (G : forall m o s, In (T, n, o, s) p_offsets -> m <= s -> exists o f, offset_of p_te T None n = Some (o, f) /\ m <= fi_size f).
  { intros m o s Hp Hm. pose proof (p_offsets_ok T n o s Hp) as P. destruct (offset_of p_te T None n) as [[o' f]|]; [|discriminate]. injection P as <- P.
    exists o', f. split; [reflexivity|]. rewrite P. exact Hm. }
  pose proof (decoded_in_range k v rest x Hb Hz E) as R.
  assert (B : array_len x <= match k with KNodeId | KNetInst => 254 | KActPredef => 256 | KUpFF => 6 | KCpFF => 1 | KApplyAction => 2 | KOhc => 2 | KOhr => 1 | _ => 0 end
              \/ ~ In k [KNodeId; KNetInst; KActPredef; KUpFF; KCpFF; KApplyAction; KOhc; KOhr]).
  { destruct R as [R|[(-> & s & -> & _ & L)|(-> & s & -> & _ & L)]]; [|left; cbn [array_len]; lia..].
    destruct k; try (right; cbn; intuition discriminate); left; destruct x; cbn [valid_ie] in R; try contradiction; cbn [array_len].
    all: try (match goal with y : node_id |- _ => destruct y as [ip|ip|s|t]; try contradiction; cbn [array_len]; try lia end).
    all: first [ let L := fresh in destruct R as [L _]; unfold lenN; rewrite L; lia
               | let L := fresh in destruct R as (? & ? & ? & L); lia
               | let L := fresh in destruct R as [_ L]; lia
               | let L := fresh in destruct R as (? & ? & L & _); rewrite L; unfold lenN; cbn [length]; lia
               | let L := fresh in destruct R as [_ (? & L & _)]; rewrite L; unfold lenN; cbn [length]; lia ]. }
  unfold arrays in Hin. cbn [In] in Hin.
  repeat (destruct Hin as [Hin|Hin]; [injection Hin as <- <- <-; destruct B as [B|B]; [|exfalso; apply B; cbn; tauto];
    eapply G; [|exact B]; unfold p_offsets; repeat (first [left; reflexivity | right])|]).
  destruct Hin.
Qed.
