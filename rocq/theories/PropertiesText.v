(* PropertiesText.v -- the text of the files that gtlv_gen prints (C102, C103). Specification: CRead.v (what C source text means, without
   reference to the generator), TextSpec.v (which names can be printed), GenSpec.v (what the definitions mean); proofs: TextLex.v,
   TextProofs.v, TextTab.v, TextFinal.v, TextRun.v.

   ms: the definitions; tc: the generator's configuration; te0, ce: types and constants of the user's headers; th, tx: the text of the
   generated .h and .c file; p: what the compiler makes of them. *)
From Coq Require Import String Ascii.
From Verif Require Import Base BaseProofs GtlvModel DecEncModel CStr IesModel TablesModel MsgModel StrModel StrSpec MemModel MemSpec MemTest GenModel GenSpec GenProofs GenTabProofs GenCompile GenFinal
  GenPfcp GenPfcpProofs PfcpMem PfcpMemProofs PfcpMemFinal GenTest PropertiesStr CRead TextModel TextSpec TextLex TextProofs TextTab TextFinal TextRun TextCheck PropertiesGen.
Local Open Scope string_scope.
Local Open Scope N_scope.
Local Open Scope list_scope.

(* the files that running the program with "h" and with "c" prints *)
Definition files (tc : tcfg) (ms : list gmsg) (th tx : text) : Prop :=
  forall prog rest, gen_main tc (prog :: "h" :: rest) ms = Some (th, 0) /\ gen_main tc (prog :: "c" :: rest) ms = Some (tx, 0).
(* they compile to p; and what C62 asks of the definitions and of the user's headers *)
Definition sound_files (tc : tcfg) (te0 : tenv) (ce : string -> option N) (lk : fns -> mleaf) (ms : list gmsg) (th tx : text) (p : program) : Prop :=
  files tc ms th tx /\ compile_files te0 ce th tx = Some p /\ printable tc ce ms
  /\ ids_faithful ms /\ types_consistent (tc_gen tc) ms /\ names_short (tc_gen tc) ms /\ groups_nonempty ms
  /\ base_types_ok te0 /\ leaf_types_ok (tc_gen tc) ms (pr_types p) lk.

Lemma files_text tc ms th tx : files tc ms th tx <-> text_h tc ms = Some th /\ text_c tc ms = Some tx.
Proof.
  split.
  - intros H. destruct (H "" []) as [A B]. cbn [gen_main String.eqb Ascii.eqb Bool.eqb] in A, B. ob A x Hx. ob B y Hy. injection A as ->. injection B as ->. auto.
  - intros [A B] prog rest. cbn [gen_main String.eqb Ascii.eqb Bool.eqb]. rewrite A, B. split; reflexivity.
Qed.
Lemma sound_gen tc te0 ce lk ms th tx p : sound_files tc te0 ce lk ms th tx p ->
  exists r e, sound_defs (tc_gen tc) te0 ce lk ms r /\ p = mkProg (gr_types r) (gr_defs r) (rev (api_funs (gc_proto (tc_gen tc)) e)).
Proof.
  intros (F & C & HP & H). apply files_text in F as [Fh Fc]. destruct (enum_words tc ce ms HP) as (e & He & Ee).
  rewrite (compile_same tc ce ms e HP te0 th tx He Ee Fh Fc) in C. destruct (gen_and_compile (tc_gen tc) te0 ce ms) as [r|] eqn:E; [|discriminate C].
  cbn [option_map] in C. assert (C' : p = mkProg (gr_types r) (gr_defs r) (rev (api_funs (gc_proto (tc_gen tc)) e))) by congruence. clear C. subst p.
  exists r, e. split; [split; [exact E|exact H]|reflexivity].
Qed.

(* ---------------------------------------------------------------- C102 *)
(* The text means the declarations that C62-C68 are about: the generator stops with an error in the one model if and only if it does
   in the other, and otherwise the compiler makes the same types and tables of both. *)
Theorem C102_text_means_declarations tc te0 ce ms : printable tc ce ms ->
  (text_h tc ms = None <-> gen_h (tc_gen tc) ms = None) /\ (text_c tc ms = None <-> gen_c (tc_gen tc) ms = None)
  /\ forall th tx, files tc ms th tx ->
     exists fs, compile_files te0 ce th tx = option_map (fun r => mkProg (gr_types r) (gr_defs r) fs) (gen_and_compile (tc_gen tc) te0 ce ms).
Proof.
  intros HP. destruct (enum_words tc ce ms HP) as (e & He & Ee). pose proof (header_read tc ce ms e HP He Ee) as RH. pose proof (c_read tc ce ms e HP He Ee) as RC.
  split; [|split].
  - destruct (text_h tc ms), (gen_h (tc_gen tc) ms); try (destruct RH; fail); split; congruence.
  - destruct (text_c tc ms), (gen_c (tc_gen tc) ms); try (destruct RC; fail); split; congruence.
  - intros th tx F. apply files_text in F as [Fh Fc]. eexists. exact (compile_same tc ce ms e HP te0 th tx He Ee Fh Fc).
Qed.
(* Definitions where every name means one thing (C64) and can be printed: the program prints two files that compile. *)
Theorem C102_accepted_partial tc te0 ce ms : well_named (tc_gen tc) te0 ce ms -> (forall T ty, te0 T = Some ty -> 0 < ty_align ty) -> printable tc ce ms ->
  exists th tx p, files tc ms th tx /\ compile_files te0 ce th tx = Some p.
Proof.
  intros HW HA HP. destruct (gen_compiles (tc_gen tc) te0 ce ms HW HA) as (r & E). destruct (enum_words tc ce ms HP) as (e & He & Ee).
  pose proof (header_read tc ce ms e HP He Ee) as RH. pose proof (c_read tc ce ms e HP He Ee) as RC.
  pose proof E as E'. unfold gen_and_compile in E'. ob E' hs Hh. ob E' cs Hc. rewrite Hh in RH. rewrite Hc in RC.
  destruct (text_h tc ms) as [th|] eqn:Eh; [|destruct RH]. destruct (text_c tc ms) as [tx|] eqn:Ec; [|destruct RC].
  exists th, tx. pose proof (compile_same tc ce ms e HP te0 th tx He Ee Eh Ec) as C. rewrite E in C. eexists. split; [|exact C]. apply files_text. auto.
Qed.
(* The function that returns the table of a message type: C62's table for the message of that type, NULL for types that are not defined. *)
Theorem C102_tables {V} tc te0 ce (la : fns -> leaf V) lk ms th tx p m t : let cfg := tc_gen tc in
  sound_files tc te0 ce lk ms th tx p -> is_message cfg ce ms m t ->
  exists ies, call_function p (gc_proto cfg ++ "_get_msg_coding")%string [VNum t] = Some (VTab ies)
  /\ means_list cfg ce la (snd m) = Some (map (erase la) ies)
  /\ Forall2 (placed cfg (pr_types p) ("struct " ++ gc_proto cfg ++ "_msg_" ++ fst m)%string) (snd m) ies
  /\ forall u, pr_types p ("union " ++ gc_proto cfg ++ "_ies")%string = Some u -> 0 < ty_size u -> layout_ok lk (ty_size u) ies.
Proof.
  intros cfg HS HM. destruct (sound_gen _ _ _ _ _ _ _ _ HS) as (r & e & HD & ->). fold cfg in HD.
  destruct (C62_tables_mean_definitions cfg te0 ce la lk ms r m t HD HM) as (ies & I1 & I2 & I3 & I4 & _).
  exists ies. split; [|split; [exact I2|split; [exact I3|]]].
  - unfold call_function. etransitivity; [exact (call_get (mkProg (gr_types r) (gr_defs r) (rev (api_funs (gc_proto cfg) e))) (gc_proto cfg) e eq_refl 4 t)|]. cbn [pr_defs]. rewrite I1. reflexivity.
  - intros u Hu. unfold gen_union_size in I4. change (msg_union cfg) with ("union " ++ gc_proto cfg ++ "_ies")%string in I4. cbn [pr_types] in Hu. rewrite Hu in I4. exact I4.
Qed.
Theorem C102_other_types tc te0 ce lk ms th tx p t : let cfg := tc_gen tc in
  sound_files tc te0 ce lk ms th tx p -> Forall (fun x => msgt_of cfg ce x <> Some t) ms ->
  call_function p (gc_proto cfg ++ "_get_msg_coding")%string [VNum t] = Some VNull.
Proof.
  intros cfg HS HM. destruct (sound_gen _ _ _ _ _ _ _ _ HS) as (r & e & HD & ->). fold cfg in HD.
  unfold call_function. etransitivity; [exact (call_get (mkProg (gr_types r) (gr_defs r) (rev (api_funs (gc_proto cfg) e))) (gc_proto cfg) e eq_refl 4 t)|]. cbn [pr_defs]. rewrite (C62_other_types cfg te0 ce lk ms r t HD HM). reflexivity.
Qed.
(* The functions that decode, encode and print: osmo_gtlvs_decode() etc. for the table of the message type, the size of the union
   and the arguments of the caller, each in its place. *)
Theorem C102_functions tc te0 ce lk ms th tx p t : let cfg := tc_gen tc in
  sound_files tc te0 ce lk ms th tx p ->
  exists u tab, pr_types p ("union " ++ gc_proto cfg ++ "_ies")%string = Some u /\ call_function p (gc_proto cfg ++ "_get_msg_coding")%string [VNum t] = Some tab
  /\ (forall dst gtlv ordered err_cb err_cb_data iei_strs,
        call_function p (gc_proto cfg ++ "_ies_decode")%string [dst; gtlv; ordered; VNum t; err_cb; err_cb_data; iei_strs]
        = Some (VCall "osmo_gtlvs_decode" [dst; VNum (ty_size u); VNum 0; gtlv; ordered; tab; err_cb; err_cb_data; iei_strs]))
  /\ (forall gtlv src err_cb err_cb_data iei_strs,
        call_function p (gc_proto cfg ++ "_ies_encode")%string [gtlv; src; VNum t; err_cb; err_cb_data; iei_strs]
        = Some (VCall "osmo_gtlvs_encode" [gtlv; src; VNum (ty_size u); VNum 0; tab; err_cb; err_cb_data; iei_strs]))
  /\ (forall buf buflen src iei_strs,
        call_function p (gc_proto cfg ++ "_ies_encode_to_str")%string [buf; buflen; src; VNum t; iei_strs]
        = Some (VCall "osmo_gtlvs_encode_to_str_buf" [buf; buflen; src; VNum (ty_size u); VNum 0; tab; iei_strs])).
Proof.
  intros cfg HS. destruct (sound_gen _ _ _ _ _ _ _ _ HS) as (r & e & HD & ->). fold cfg in HD. fold cfg.
  destruct (union_there cfg te0 ce ms r (proj1 HD)) as (u & Hu). set (p := mkProg (gr_types r) (gr_defs r) (rev (api_funs (gc_proto cfg) e))).
  exists u, (table_value p t). split; [exact Hu|]. unfold call_function.
  split; [exact (call_get p (gc_proto cfg) e eq_refl 4 t)|]. split; [|split]; intros.
  - exact (call_dec p (gc_proto cfg) e eq_refl u Hu 3 _ _ _ t _ _ _).
  - exact (call_enc p (gc_proto cfg) e eq_refl u Hu 3 _ _ t _ _ _).
  - exact (call_str p (gc_proto cfg) e eq_refl u Hu 3 _ _ _ t _).
Qed.
(* Without an argument, or with another one than "h" and "c": nothing is printed, and the exit status is 1. *)
Theorem C102_usage tc ms argv : (forall prog a rest, argv = prog :: a :: rest -> a <> "h" /\ a <> "c") -> gen_main tc argv ms = Some ([], 1).
Proof.
  intros H. destruct argv as [|prog [|a rest]]; try reflexivity. destruct (H prog a rest eq_refl) as [A B]. cbn [gen_main].
  rewrite (proj2 (String.eqb_neq a "h") A), (proj2 (String.eqb_neq a "c") B). reflexivity.
Qed.

Definition g_tc : tcfg := mkTCfg g_cfg "gtlv_gen.c" "TS " None (Some "#include <x.h>") (Some "#include ""y.h""") (fun n => Some "7.1").
Lemma g_printable : printable g_tc g_ce g_ok.
Proof. apply printable_check; try (vm_compute; reflexivity). { apply no_star_ok. reflexivity. } intros n r E. injection E as <-. reflexivity. Qed.
Example C102_example be : exists th tx p, sound_files g_tc p_te0 g_ce (g_lk be) g_ok th tx p
  /\ (exists h h1 h2 k1 k2, call_function p "p_get_msg_coding" [VNum 9] = Some (VTab [MNest h 16 None OrdSame [MLeaf h1 k1; MLeaf h2 k2]]) /\ mh_cofs h = 64)
  /\ call_function p "p_get_msg_coding" [VNum 8] = Some VNull /\ (length th > 600)%nat /\ (length tx > 2500)%nat.
Proof.
  destruct (text_h g_tc g_ok) as [th|] eqn:Eh; [|vm_compute in Eh; discriminate Eh]. destruct (text_c g_tc g_ok) as [tx|] eqn:Ec; [|vm_compute in Ec; discriminate Ec].
  destruct (C102_text_means_declarations g_tc p_te0 g_ce g_ok g_printable) as (_ & _ & H). specialize (H th tx (proj2 (files_text _ _ _ _) (conj Eh Ec))).
  destruct H as (fs & H). change (tc_gen g_tc) with g_cfg in H. rewrite g_accepted in H. cbn [option_map] in H.
  exists th, tx. eexists. assert (S : sound_files g_tc p_te0 g_ce (g_lk be) g_ok th tx (mkProg (gr_types (g_gen g_ok)) (gr_defs (g_gen g_ok)) fs)).
  { split; [apply files_text; auto|]. split; [exact H|]. split; [exact g_printable|]. destruct (g_sound be) as (_ & R). exact R. }
  split; [exact S|]. split; [|split; [|split]].
  - destruct (C62_example be) as (_ & _ & (h & h1 & h2 & k1 & k2 & D & _ & _ & _ & D4 & _) & _). exists h, h1, h2, k1, k2. split; [|exact D4].
    destruct (sound_gen _ _ _ _ _ _ _ _ S) as (r & e & HD & EP). pose proof (f_equal pr_defs EP) as ED. cbn [pr_defs] in ED. rewrite ED in D.
    rewrite EP. etransitivity; [exact (call_get (mkProg (gr_types r) (gr_defs r) (rev (api_funs "p" e))) "p" e eq_refl 4 9)|]. cbn [pr_defs]. rewrite D. reflexivity.
  - apply (C102_other_types g_tc p_te0 g_ce (g_lk be) g_ok th tx _ 8 S). repeat constructor; vm_compute; discriminate.
  - assert (X : match text_h g_tc g_ok with Some t => Nat.ltb 600 (length t) | None => false end = true) by (vm_compute; reflexivity). rewrite Eh in X. apply Nat.ltb_lt in X. exact X.
  - assert (X : match text_c g_tc g_ok with Some t => Nat.ltb 2500 (length t) | None => false end = true) by (vm_compute; reflexivity). rewrite Ec in X. apply Nat.ltb_lt in X. exact X.
Qed.

(* "Definitions where every name means one thing are accepted" is false of the text: an IE named to_str_x next to one named x, if the
   functions that print IEs are wanted. foo_enc_to_str_x() is then declared with two different types. *)
Definition t_cfg : gcfg := mkGCfg "p" "MSGT_" "TAG_" "struct p_ie_" true.
Definition t_tc : tcfg := mkTCfg t_cfg "gtlv_gen.c" "TS " None None None (fun n => None).
Definition t_ce (s : string) : option N := get s [("TAG_X", 1); ("TAG_TO_STR_X", 2); ("MSGT_FOO", 7)].
Definition t_ms : list gmsg :=
  [("foo", [GIe (mkGMod "x" false 0 0 None) (mkGDef 1 (Some "uint16_t") None None) None; GIe (mkGMod "to_str_x" false 0 0 None) (mkGDef 2 (Some "uint16_t") None None) None])].
Lemma t_named : well_named t_cfg p_te0 t_ce t_ms.
Proof.
  unfold well_named. split. { intros i Hi E. cbn in Hi. repeat (destruct Hi as [<-|Hi]; [destruct (E eq_refl)|]). destruct Hi. }
  split. { intros i Hi _. cbn in Hi. intuition (subst; vm_compute; repeat constructor). }
  split. { intros i j Hi Hj Ni Nj E. cbn in Hi. repeat (destruct Hi as [<-|Hi]; [destruct (Ni eq_refl)|]). destruct Hi. }
  split. { intros i j a b Hi Hj Ea Eb _. cbn in Hi. repeat (destruct Hi as [<-|Hi]; [discriminate Ea|]). destruct Hi. }
  split. { intros i ies Hi E. cbn in Hi. repeat (destruct Hi as [<-|Hi]; [discriminate E|]). destruct Hi. }
  split. { constructor; [apply nodup_b_ok; reflexivity|constructor]. }
  split; [apply nodup_b_ok; reflexivity|].
  split; [vm_compute; discriminate|]. split; [vm_compute; discriminate|].
  split. { intros i Hi E. cbn in Hi. intuition (subst; try discriminate E; vm_compute; discriminate). }
  split. { intros i Hi E. cbn in Hi. repeat (destruct Hi as [<-|Hi]; [destruct (E eq_refl)|]). destruct Hi. }
  split. { repeat constructor; try reflexivity; vm_compute; discriminate. }
  split; [reflexivity|].
  split. { intros i Hi. cbn in Hi. repeat (destruct Hi as [<-|Hi]; [split; [vm_compute; discriminate|intros x Hx; discriminate Hx]|]). destruct Hi. }
  repeat constructor; vm_compute; discriminate.
Qed.
(* the same without those functions *)
Definition no_str (tc : tcfg) : tcfg :=
  mkTCfg (mkGCfg (gc_proto (tc_gen tc)) (gc_msgt (tc_gen tc)) (gc_tagp (tc_gen tc)) (gc_dtp (tc_gen tc)) false)
    (tc_file tc) (tc_prefix tc) (tc_enum tc) (tc_hhdr tc) (tc_chdr tc) (tc_spec tc).
Theorem C102_accepted_refuted : exists tc te0 ce ms th tx, well_named (tc_gen tc) te0 ce ms /\ (forall T ty, te0 T = Some ty -> 0 < ty_align ty)
  /\ printable (no_str tc) ce ms
  /\ files tc ms th tx /\ compile_files te0 ce th tx = None.
Proof.
  destruct (text_h t_tc t_ms) as [th|] eqn:Eh; [|vm_compute in Eh; discriminate Eh]. destruct (text_c t_tc t_ms) as [tx|] eqn:Ec; [|vm_compute in Ec; discriminate Ec].
  exists t_tc, p_te0, t_ce, t_ms, th, tx. split; [exact t_named|]. split; [exact (proj2 (proj2 g_base))|].
  split. { apply printable_check; try (vm_compute; reflexivity); try exact Logic.I; [apply no_star_ok; reflexivity|]. intros n r E. discriminate E. }
  split; [apply files_text; auto|].
  assert (X : match text_h t_tc t_ms, text_c t_tc t_ms with Some a, Some b => match compile_files p_te0 t_ce a b with None => true | Some _ => false end | _, _ => false end = true) by (vm_compute; reflexivity).
  rewrite Eh, Ec in X. destruct (compile_files p_te0 t_ce th tx); [discriminate X|reflexivity].
Qed.

(* The files that gen__pfcp_ies_auto prints (configuration: gen__pfcp_ies_auto.c:352-365), with any headers that declare the types of leaf
   IEs: they compile, and osmo_pfcp_get_msg_coding() returns for each message type the table that C18-C29 and C54-C58 are about. *)
Definition pfcp_tc (file : string) (spec : N -> option string) : tcfg :=
  mkTCfg pfcp_cfg file "3GPP TS 29.244 " (Some "enum osmo_pfcp_message_type") (Some "#include <osmocom/pfcp/pfcp_ies_custom.h>")
    (Some "#include <osmocom/pfcp/pfcp_ies_auto.h>") spec.
Lemma pfcp_printable file spec : comment_safe file -> (forall n s, spec n = Some s -> ~ In "*"%char (chars s)) -> printable (pfcp_tc file spec) pfcp_ce pfcp_msgs.
Proof.
  intros HF HS. apply printable_check; try (vm_compute; reflexivity). { exact HF. }
  intros n r E. specialize (HS n r E). apply forallb_forall. intros c Hc. apply Bool.negb_true_iff. apply N.eqb_neq. intros K. apply HS.
  replace "*"%char with c; [exact Hc|]. rewrite <- (ascii_N_embedding c). change (N_of_ascii c) with (code c). rewrite K. reflexivity.
Qed.
Theorem C102_pfcp te0 file spec : pfcp_env te0 -> comment_safe file -> (forall n s, spec n = Some s -> ~ In "*"%char (chars s)) ->
  exists th tx p, files (pfcp_tc file spec) pfcp_msgs th tx /\ compile_files te0 pfcp_ce th tx = Some p
  /\ forall t, match msg_table t with
     | Some tab => exists ies, call_function p "osmo_pfcp_get_msg_coding" [VNum t] = Some (VTab ies) /\ map (erase pfcp_leaf) ies = tab
     | None => call_function p "osmo_pfcp_get_msg_coding" [VNum t] = Some VNull
     end.
Proof.
  intros HE HF HS. pose proof (pfcp_printable file spec HF HS) as HP.
  destruct (C66_pfcp_tables te0 HE) as (r & u & R1 & _ & _ & R4 & _). destruct (enum_words _ _ _ HP) as (e & He & Ee).
  destruct (C102_accepted_partial (pfcp_tc file spec) te0 pfcp_ce pfcp_msgs (pfcp_well_named te0 HE) (proj1 (proj2 (proj2 HE))) HP) as (th & tx & p & F & C).
  exists th, tx, p. split; [exact F|]. split; [exact C|]. apply files_text in F as [Fh Fc].
  rewrite (compile_same _ pfcp_ce pfcp_msgs e HP te0 th tx He Ee Fh Fc) in C. change (tc_gen (pfcp_tc file spec)) with pfcp_cfg in C. rewrite R1 in C. cbn [option_map] in C.
  assert (E : p = mkProg (gr_types r) (gr_defs r) (rev (api_funs (gc_proto pfcp_cfg) e))) by congruence. clear C Fh Fc R1 Ee HP. intros t.
  assert (CG : call_function p "osmo_pfcp_get_msg_coding" [VNum t] = Some (match defs_get (gr_defs r) t with Some ies => VTab ies | None => VNull end)).
  { rewrite E. exact (call_get (mkProg (gr_types r) (gr_defs r) (rev (api_funs (gc_proto pfcp_cfg) e))) "osmo_pfcp" e eq_refl 4 t). }
  rewrite CG, <- R4. destruct (defs_get (gr_defs r) t) as [ies|]; cbn [option_map]; [exists ies; auto|reflexivity].
Qed.
Example C102_pfcp_example : pfcp_env p_te /\ comment_safe "gtlv_gen.c" /\ (forall n s, (fun n : N => Some "8.2.36") n = Some s -> ~ In "*"%char (chars s)).
Proof.
  split; [exact p_env|]. split; [apply no_star_ok; reflexivity|]. intros n s E. injection E as <-. cbn. intuition discriminate.
Qed.

(* ---------------------------------------------------------------- C103 *)
(* What a call of the library does, on the memory [dm] that dst / src points to. c: the TLV format of the osmo_gtlv_load / osmo_gtlv_put. *)
Definition table_arg (v : value) : option (option (list (mcoding fns))) := match v with VTab l => Some (Some l) | VNull => Some None | _ => None end.
Definition decode_call (lk : fns -> mleaf) (be : bool) (c : cfg) (m : list N) (len : N) (dm : list N) (v : option value) : option (list N * res unit) :=
  match v with
  | Some (VCall "osmo_gtlvs_decode" [VPtr _; VNum size; VNum ofs; VPtr _; VNum ordered; tab; _; _; _]) =>
    t <-? table_arg tab ;; Some (mgtlvs_decode lk be size c (negb (ordered =? 0)) ofs t m len dm)
  | _ => None
  end.
Definition encode_call (lk : fns -> mleaf) (be : bool) (c : cfg) (cap : N) (buf : list N) (dm : list N) (v : option value) : option eres :=
  match v with
  | Some (VCall "osmo_gtlvs_encode" [VPtr _; VPtr _; VNum size; VNum ofs; tab; _; _; _]) =>
    t <-? table_arg tab ;; Some (mgtlvs_encode lk be size dm c cap ofs t buf)
  | _ => None
  end.
Definition print_call (lk : fns -> mleaf) (be : bool) (names : N -> list N) (b : cbuf) (n : N) (dm : list N) (v : option value) : option (res (cbuf * Z)) :=
  match v with
  | Some (VCall "osmo_gtlvs_encode_to_str_buf" [VPtr _; VPtr _; VPtr _; VNum size; VNum ofs; tab; VPtr _]) =>
    t <-? table_arg tab ;; Some (mgtlvs_to_str lk be size dm names ofs t b n)
  | _ => None
  end.
(* From the text of the generated files to memory: calling the decoder that was printed, on a zeroed union, for a defined message type,
   does what osmo_gtlvs_decode() does for the table that the definitions mean (C10-C16, C84, C85), and the values are in the members
   that are named after the IEs; encoding and printing likewise. *)
Theorem C103_decode {V} tc te0 ce (la : fns -> leaf V) lk ld be ms th tx p m t tab c (o : bool) bs len dm u dst gtlv e1 e2 e3 : let cfg := tc_gen tc in
  sound_files tc te0 ce lk ms th tx p -> is_message cfg ce ms m t -> means_list cfg ce la (snd m) = Some tab ->
  pr_types p ("union " ++ gc_proto cfg ++ "_ies")%string = Some u -> 0 < ty_size u -> ty_size u < 2 ^ 32 ->
  (forall k, dec_ok lk la ld k) -> bytes_ok bs -> lenN dm = ty_size u -> Forall (fun b => b = 0) dm ->
  exists dm' res ies,
    decode_call lk be c bs len dm (call_function p (gc_proto cfg ++ "_ies_decode")%string [VPtr dst; VPtr gtlv; VNum (if o then 1 else 0); VNum t; e1; e2; e3]) = Some (dm', res)
    /\ call_function p (gc_proto cfg ++ "_get_msg_coding")%string [VNum t] = Some (VTab ies)
    /\ Forall2 (placed cfg (pr_types p) ("struct " ++ gc_proto cfg ++ "_msg_" ++ fst m)%string) (snd m) ies
    /\ match gtlvs_decode c o (Some tab) bs len with
       | Ok slots => res = Ok tt /\ lenN dm' = ty_size u /\ struct_held lk ld be false ies 0 dm' slots
       | Err e => res = Err e /\ lenN dm' = ty_size u
       | UB _ => True
       end.
Proof.
  intros cfg HS HM HT HU H0 H32 HD HB HL HZ. destruct (C102_functions tc te0 ce lk ms th tx p t HS) as (u' & tv & U & G & FD & _). fold cfg in U, G, FD.
  assert (u' = u) by congruence. subst u'. destruct (C102_tables tc te0 ce la lk ms th tx p m t HS HM) as (ies & G' & _ & PL & _). fold cfg in G', PL.
  assert (tv = VTab ies) by congruence. subst tv. rewrite FD. cbn [decode_call table_arg obind].
  destruct (sound_gen _ _ _ _ _ _ _ _ HS) as (r & e & SD & EP). fold cfg in SD.
  assert (US : gen_union_size cfg r = ty_size u). { unfold gen_union_size. change (msg_union cfg) with ("union " ++ gc_proto cfg ++ "_ies")%string. rewrite EP in HU. cbn [pr_types] in HU. rewrite HU. reflexivity. }
  assert (DG : defs_get (gr_defs r) t = Some ies).
  { destruct (C62_tables_mean_definitions cfg te0 ce la lk ms r m t SD HM) as (ies' & D & _). rewrite D. f_equal.
    rewrite EP in G'. assert (X : Some (VTab ies') = Some (VTab ies)); [|congruence]. rewrite <- G'. symmetry.
    etransitivity; [exact (call_get (mkProg (gr_types r) (gr_defs r) (rev (api_funs (gc_proto cfg) e))) (gc_proto cfg) e eq_refl 4 t)|]. cbn [pr_defs]. rewrite D. reflexivity. }
  pose proof (C63_generated_decode cfg te0 ce la lk ld be ms r m t tab c o bs len dm SD HM) as X. rewrite US in X. specialize (X H0 HT H32 HD HB HL HZ).
  unfold gen_ies_decode in X. rewrite US, DG in X. replace (negb ((if o then 1 else 0) =? 0)) with o by (destruct o; reflexivity).
  destruct (mgtlvs_decode lk be (ty_size u) c o 0 (Some ies) bs len dm) as [dm' res] eqn:E. exists dm', res, ies. split; [reflexivity|]. split; [exact G'|]. split; [exact PL|].
  destruct (gtlvs_decode c o (Some tab) bs len) as [slots|er|ub].
  - destruct X as (dm2 & ies2 & E2 & L2 & I2 & _ & S2). assert (ies2 = ies) by congruence. subst ies2. injection E2 as -> ->. auto.
  - destruct X as (dm2 & E2 & L2). injection E2 as -> ->. auto.
  - exact Logic.I.
Qed.
Theorem C103_encode {V} tc te0 ce (la : fns -> leaf V) lk ld be ms th tx p m t tab ies c cap buf slots dm u dst src e1 e2 e3 : let cfg := tc_gen tc in
  sound_files tc te0 ce lk ms th tx p -> is_message cfg ce ms m t -> means_list cfg ce la (snd m) = Some tab ->
  pr_types p ("union " ++ gc_proto cfg ++ "_ies")%string = Some u -> 0 < ty_size u -> ty_size u < 2 ^ 32 -> (forall k, enc_ok lk la ld k) -> lenN dm = ty_size u ->
  call_function p (gc_proto cfg ++ "_get_msg_coding")%string [VNum t] = Some (VTab ies) -> struct_held lk ld be true ies 0 dm slots ->
  encode_call lk be c cap buf dm (call_function p (gc_proto cfg ++ "_ies_encode")%string [VPtr dst; VPtr src; VNum t; e1; e2; e3])
  = Some (gtlvs_encode c cap (Some tab) buf slots).
Proof.
  intros cfg HS HM HT HU H0 H32 HE HL G HH. destruct (C102_functions tc te0 ce lk ms th tx p t HS) as (u' & tv & U & G' & _ & FE & _). fold cfg in U, G', FE.
  assert (u' = u) by congruence. subst u'. assert (tv = VTab ies) by congruence. subst tv. rewrite FE. cbn [encode_call table_arg obind]. f_equal.
  destruct (sound_gen _ _ _ _ _ _ _ _ HS) as (r & e & SD & EP). fold cfg in SD.
  assert (US : gen_union_size cfg r = ty_size u). { unfold gen_union_size. change (msg_union cfg) with ("union " ++ gc_proto cfg ++ "_ies")%string. rewrite EP in HU. cbn [pr_types] in HU. rewrite HU. reflexivity. }
  assert (DG : defs_get (gr_defs r) t = Some ies).
  { destruct (C62_tables_mean_definitions cfg te0 ce la lk ms r m t SD HM) as (ies' & D & _). rewrite D. f_equal.
    rewrite EP in G. assert (X : Some (VTab ies') = Some (VTab ies)); [|congruence]. rewrite <- G. symmetry.
    etransitivity; [exact (call_get (mkProg (gr_types r) (gr_defs r) (rev (api_funs (gc_proto cfg) e))) (gc_proto cfg) e eq_refl 4 t)|]. cbn [pr_defs]. rewrite D. reflexivity. }
  pose proof (C63_generated_encode cfg te0 ce la lk ld be ms r m t tab ies c cap buf slots dm SD HM) as X. rewrite US in X. specialize (X H0 HT DG H32 HE HL HH).
  unfold gen_ies_encode in X. rewrite US, DG in X. exact X.
Qed.
Theorem C103_print {V} tc te0 ce (la : fns -> leaf V) lk (ls : fns -> option (V -> strfn)) ld be ms th tx p m t ies names slots dm b n u v1 v2 v3 v4 : let cfg := tc_gen tc in
  sound_files tc te0 ce lk ms th tx p -> is_message cfg ce ms m t ->
  pr_types p ("union " ++ gc_proto cfg ++ "_ies")%string = Some u -> 0 < ty_size u -> ty_size u < 2 ^ 32 -> (forall k, str_ok lk ls ld k) -> lenN dm = ty_size u ->
  call_function p (gc_proto cfg ++ "_get_msg_coding")%string [VNum t] = Some (VTab ies) -> struct_held lk ld be true ies 0 dm slots ->
  print_call lk be names b n dm (call_function p (gc_proto cfg ++ "_ies_encode_to_str")%string [VPtr v1; VPtr v2; VPtr v3; VNum t; VPtr v4])
  = Some (gtlvs_to_str ls names (Some (map erase_str ies)) slots b n).
Proof.
  intros cfg HS HM HU H0 H32 HE HL G HH. destruct (C102_functions tc te0 ce lk ms th tx p t HS) as (u' & tv & U & G' & _ & _ & FE). fold cfg in U, G', FE.
  assert (u' = u) by congruence. subst u'. assert (tv = VTab ies) by congruence. subst tv. rewrite FE. cbn [print_call table_arg obind]. f_equal.
  destruct (sound_gen _ _ _ _ _ _ _ _ HS) as (r & e & SD & EP). fold cfg in SD.
  assert (US : gen_union_size cfg r = ty_size u). { unfold gen_union_size. change (msg_union cfg) with ("union " ++ gc_proto cfg ++ "_ies")%string. rewrite EP in HU. cbn [pr_types] in HU. rewrite HU. reflexivity. }
  assert (DG : defs_get (gr_defs r) t = Some ies).
  { destruct (C62_tables_mean_definitions cfg te0 ce la lk ms r m t SD HM) as (ies' & D & _). rewrite D. f_equal.
    rewrite EP in G. assert (X : Some (VTab ies') = Some (VTab ies)); [|congruence]. rewrite <- G. symmetry.
    etransitivity; [exact (call_get (mkProg (gr_types r) (gr_defs r) (rev (api_funs (gc_proto cfg) e))) (gc_proto cfg) e eq_refl 4 t)|]. cbn [pr_defs]. rewrite D. reflexivity. }
  pose proof (C63_generated_print cfg te0 ce la lk ls ld be ms r m t ies names slots dm b n SD HM) as X. rewrite US in X. specialize (X H0 DG H32 HE HL HH).
  unfold gen_ies_to_str in X. rewrite US, DG in X. exact X.
Qed.

Lemma call_gen_decode cfg r e lk be c (o : bool) t m len dm dst gtlv e1 e2 e3 u : gr_types r (msg_union cfg) = Some u ->
  decode_call lk be c m len dm (call_function (mkProg (gr_types r) (gr_defs r) (rev (api_funs (gc_proto cfg) e))) (gc_proto cfg ++ "_ies_decode")%string
    [VPtr dst; VPtr gtlv; VNum (if o then 1 else 0); VNum t; e1; e2; e3]) = Some (gen_ies_decode cfg r lk be c o t m len dm).
Proof.
  intros Hu. unfold call_function. rewrite (call_dec (mkProg (gr_types r) (gr_defs r) (rev (api_funs (gc_proto cfg) e))) (gc_proto cfg) e eq_refl u Hu 3).
  unfold gen_ies_decode, gen_union_size. rewrite Hu. unfold table_value. cbn [pr_defs]. cbn [decode_call]. replace (negb ((if o then 1 else 0) =? 0)) with o by (destruct o; reflexivity).
  destruct (defs_get (gr_defs r) t); reflexivity.
Qed.
Lemma call_gen_encode cfg r e lk be c cap buf t dm dst src e1 e2 e3 u : gr_types r (msg_union cfg) = Some u ->
  encode_call lk be c cap buf dm (call_function (mkProg (gr_types r) (gr_defs r) (rev (api_funs (gc_proto cfg) e))) (gc_proto cfg ++ "_ies_encode")%string
    [VPtr dst; VPtr src; VNum t; e1; e2; e3]) = Some (gen_ies_encode cfg r lk be dm t c cap buf).
Proof.
  intros Hu. unfold call_function. rewrite (call_enc (mkProg (gr_types r) (gr_defs r) (rev (api_funs (gc_proto cfg) e))) (gc_proto cfg) e eq_refl u Hu 3).
  unfold gen_ies_encode, gen_union_size. rewrite Hu. unfold table_value. cbn [pr_defs encode_call]. destruct (defs_get (gr_defs r) t); reflexivity.
Qed.
Lemma call_gen_print cfg r e lk be names b n t dm v1 v2 v3 v4 u : gr_types r (msg_union cfg) = Some u ->
  print_call lk be names b n dm (call_function (mkProg (gr_types r) (gr_defs r) (rev (api_funs (gc_proto cfg) e))) (gc_proto cfg ++ "_ies_encode_to_str")%string
    [VPtr v1; VPtr v2; VPtr v3; VNum t; VPtr v4]) = Some (gen_ies_to_str cfg r lk be dm t names b n).
Proof.
  intros Hu. unfold call_function. rewrite (call_str (mkProg (gr_types r) (gr_defs r) (rev (api_funs (gc_proto cfg) e))) (gc_proto cfg) e eq_refl u Hu 3).
  unfold gen_ies_to_str, gen_union_size. rewrite Hu. unfold table_value. cbn [pr_defs print_call]. destruct (defs_get (gr_defs r) t); reflexivity.
Qed.
(* The PFCP library as printed: the calls of osmo_pfcp_ies_decode() in pfcp_msg.c:339-342, of osmo_pfcp_ies_encode() in 344-351 and of
   osmo_pfcp_ies_encode_to_str() in 566-580 decode, encode and print every message as C18-C29 and C54-C58 say, into and out of the members
   of the printed union. *)
Definition pfcp_compiled (te0 : tenv) (file : string) (spec : N -> option string) (p : program) : Prop :=
  comment_safe file /\ (forall n s, spec n = Some s -> ~ In "*"%char (chars s))
  /\ exists th tx, files (pfcp_tc file spec) pfcp_msgs th tx /\ compile_files te0 pfcp_ce th tx = Some p.
Lemma pfcp_compiled_gen te0 file spec p r : pfcp_env te0 -> gen_and_compile pfcp_cfg te0 pfcp_ce pfcp_msgs = Some r -> pfcp_compiled te0 file spec p ->
  exists e u, p = mkProg (gr_types r) (gr_defs r) (rev (api_funs (gc_proto pfcp_cfg) e)) /\ gr_types r (msg_union pfcp_cfg) = Some u.
Proof.
  intros HE HR (HF & HS & th & tx & F & C). pose proof (pfcp_printable file spec HF HS) as HP.
  destruct (enum_words _ _ _ HP) as (e & He & Ee). apply files_text in F as [Fh Fc]. destruct (union_there _ _ _ _ _ HR) as (u & Hu). exists e, u. split; [|exact Hu].
  rewrite (compile_same _ pfcp_ce pfcp_msgs e HP te0 th tx He Ee Fh Fc) in C. change (tc_gen (pfcp_tc file spec)) with pfcp_cfg in C. rewrite HR in C. cbn [option_map] in C. congruence.
Qed.
Theorem C103_pfcp_decode te0 r lk ld T be file spec p t d rest dm m tlv e1 e2 e3 : pfcp_host te0 r lk ld T -> pfcp_compiled te0 file spec p ->
  bytes_ok (d ++ rest) -> In 0 rest -> lenN dm = gen_union_size pfcp_cfg r -> Forall (fun b => b = 0) dm ->
  exists dm' res, decode_call lk be t16l16v (d ++ rest) (lenN d) dm (call_function p "osmo_pfcp_ies_decode" [VPtr m; VPtr tlv; VNum 0; VNum t; e1; e2; e3]) = Some (dm', res)
  /\ lenN dm' = gen_union_size pfcp_cfg r
  /\ match decode_tlv t (d ++ rest) (lenN d) with
     | Ok slots => res = Ok tt /\ union_holds r lk ld be t dm' slots
     | Err e => res = Err e
     | UB _ => False
     end.
Proof.
  intros HH HC HB HI HL HZ. destruct (pfcp_compiled_gen te0 file spec p r (proj1 HH) (proj1 (proj2 HH)) HC) as (e & u & -> & Hu).
  pose proof (C67_pfcp_decode te0 r lk ld T be t d rest dm HH HB HI HL HZ) as X.
  destruct (gen_ies_decode pfcp_cfg r lk be t16l16v false t (d ++ rest) (lenN d) dm) as [dm' res] eqn:E. exists dm', res.
  split; [rewrite <- E; exact (call_gen_decode pfcp_cfg r e lk be t16l16v false t (d ++ rest) (lenN d) dm m tlv e1 e2 e3 u Hu)|].
  destruct (decode_tlv t (d ++ rest) (lenN d)) as [slots|er|ub].
  - destruct X as (dm2 & E2 & X). injection E2 as -> ->. split; [exact (proj1 X)|]. auto.
  - destruct X as (dm2 & E2 & X). injection E2 as -> ->. auto.
  - destruct X.
Qed.
Theorem C103_pfcp_encode te0 r lk ld T be file spec p t dm slots cap buf tlv m e1 e2 e3 : pfcp_host te0 r lk ld T -> pfcp_compiled te0 file spec p -> union_holds r lk ld be t dm slots ->
  encode_call lk be t16l16v cap buf dm (call_function p "osmo_pfcp_ies_encode" [VPtr tlv; VPtr m; VNum t; e1; e2; e3]) = Some (encode_tlv cap buf t slots).
Proof.
  intros HH HC HU. destruct (pfcp_compiled_gen te0 file spec p r (proj1 HH) (proj1 (proj2 HH)) HC) as (e & u & -> & Hu).
  rewrite <- (C68_pfcp_encode te0 r lk ld T be t dm slots cap buf HH HU). exact (call_gen_encode pfcp_cfg r e lk be t16l16v cap buf t dm tlv m e1 e2 e3 u Hu).
Qed.
Theorem C103_pfcp_print te0 r lk ld T be file spec p t dm slots b n v1 v2 v3 v4 : pfcp_host te0 r lk ld T -> pfcp_compiled te0 file spec p -> union_holds r lk ld be t dm slots ->
  print_call lk be (tx_iei T) b n dm (call_function p "osmo_pfcp_ies_encode_to_str" [VPtr v1; VPtr v2; VPtr v3; VNum t; VPtr v4]) = Some (ies_to_str T t slots b n).
Proof.
  intros HH HC HU. destruct (pfcp_compiled_gen te0 file spec p r (proj1 HH) (proj1 (proj2 HH)) HC) as (e & u & -> & Hu).
  rewrite <- (C68_pfcp_print te0 r lk ld T be t dm slots b n HH HU). exact (call_gen_print pfcp_cfg r e lk be (tx_iei T) b n t dm v1 v2 v3 v4 u Hu).
Qed.
Example C103_example be : exists p, pfcp_host p_te p_r (p_lk be C57_T) (p_ld be) C57_T /\ pfcp_compiled p_te "gtlv_gen.c" (fun _ => Some "8.2.36") p.
Proof.
  destruct C102_pfcp_example as (A & B & C). destruct (C102_pfcp p_te "gtlv_gen.c" (fun _ => Some "8.2.36") A B C) as (th & tx & p & F & K & _).
  exists p. split; [exact (p_host be C57_T)|]. split; [exact B|]. split; [exact C|]. exists th, tx. auto.
Qed.

Print Assumptions C102_text_means_declarations.
Print Assumptions C102_accepted_partial.
Print Assumptions C102_tables.
Print Assumptions C102_other_types.
Print Assumptions C102_functions.
Print Assumptions C102_usage.
Print Assumptions C102_accepted_refuted.
Print Assumptions C102_pfcp.
Print Assumptions C103_decode.
Print Assumptions C103_encode.
Print Assumptions C103_print.
Print Assumptions C103_pfcp_decode.
Print Assumptions C103_pfcp_encode.
Print Assumptions C103_pfcp_print.
