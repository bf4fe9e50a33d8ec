(* TextFinal.v -- compiling the generated text gives the types, tables and functions of GenModel.v *)
From Coq Require Import String Ascii.
From Verif Require Import Base GtlvModel DecEncModel MemModel GenModel GenSpec GenProofs GenTabProofs GenCompile CRead TextModel TextSpec TextLex TextProofs TextTab.
Local Open Scope string_scope.
Local Open Scope list_scope.

(* ---------------------------------------------------------------- an entry *)
Lemma offset_tree te k n sub m : designated te ([I k; I n; Pu Comma] ++ memb_tree sub m) = offset_of te (k ++ " " ++ n) sub m.
Proof. destruct sub as [s|]; reflexivity. Qed.
Definition agree (ns : names) (ex : list fns) (x : string + fns) : Prop :=
  match x with
  | inl _ => True
  | inr f =>
    if existsb (fun g => String.eqb (fn_dec g) (fn_dec f)) ex
    then get (fn_dec f) ns = Some (Some dec_type) /\ get (fn_enc f) ns = Some (Some enc_type) /\ (forall s, fn_str f = Some s -> get s ns = Some (Some str_type))
    else forall t, get (fn_dec f) ns <> Some (Some t)
  end.
Lemma ti_read te ce id t x : inst_ok ce id x -> t <> "true" ->
  read_ti te ce (I t :: inst_tree id x) =
  (tag <-? ce t ;; i <-? match x with None => Some None | Some s => v <-? ce s ;; Some (Some v) end ;; Some (match i with None => mkTi tag false 0 | Some v => mkTi tag true v end)).
Proof.
  intros H Ht. apply String.eqb_neq in Ht. unfold read_ti, inst_tree. destruct x as [s|]; cbn [inst_ok] in H.
  - destruct id; cbn [app split_comma rev obind omap const_expr]; rewrite Ht.
    + apply String.eqb_neq in H. rewrite H. change (String.eqb "true" "true") with true. cbn match. destruct (ce t); [|reflexivity]. cbn [obind]. destruct (ce s); reflexivity.
    + change (String.eqb "true" "true") with true. cbn match. rewrite H. destruct (ce t); [|reflexivity]. cbn [obind]. destruct (ce s); reflexivity.
  - cbn [split_comma rev app obind omap const_expr]. rewrite Ht. destruct (ce t); reflexivity.
Qed.
Definition parts_fields (k n : string) (e : centry) : list (string * list tree) :=
  ("memb_ofs", off_tree "offsetof" k n (ce_sub e) (ce_memb e))
  :: match ce_kind e with
     | inl t => [("nested_ies", [I t])]
     | inr f => [("dec_func", [I (fn_dec f)]); ("enc_func", [I (fn_enc f)])] ++ match fn_str f with Some s => [("enc_to_str_func", [I s])] | None => [] end
     end
  ++ match ce_multi e with
     | None => []
     | Some (mx, mand, c) =>
       [("memb_array_pitch", off_tree "OSMO_MEMB_ARRAY_PITCH" k n (ce_sub e) (ce_memb e)); ("has_count", [I "true"]); ("count_max", [Nm (dec_str mx)]);
        ("count_mandatory", [Nm (dec_str mand)]); ("count_ofs", off_tree "offsetof" k n (ce_sub e) c)]
     end
  ++ match ce_flag e with None => [] | Some p => [("has_presence_flag", [I "true"]); ("presence_flag_ofs", off_tree "offsetof" k n (ce_sub e) p)] end.
Lemma fields_read k n e : omap read_field (fld "memb_ofs" (off_tree "offsetof" k n (ce_sub e) (ce_memb e)) :: kind_parts (ce_kind e) ++ multi_parts k n e ++ flag_parts k n e)
  = Some (parts_fields k n e).
Proof.
  unfold kind_parts, multi_parts, flag_parts, parts_fields. destruct (ce_kind e) as [t|[a b [s|]]], (ce_multi e) as [[[mx mand] c]|], (ce_flag e) as [p|]; reflexivity.
Qed.
Lemma const_offset te ce k n sub m : const_expr te ce (off_tree "offsetof" k n sub m) = (o <-? offset_of te (k ++ " " ++ n) sub m ;; Some (fst o)).
Proof. unfold off_tree, const_expr. change (String.eqb "offsetof" "offsetof") with true. cbn match. rewrite offset_tree. reflexivity. Qed.
Lemma const_pitch te ce k n sub m : const_expr te ce (off_tree "OSMO_MEMB_ARRAY_PITCH" k n sub m)
  = (o <-? offset_of te (k ++ " " ++ n) sub m ;; if fi_n (snd o) then Some (fi_elem (snd o)) else None).
Proof. unfold off_tree, const_expr. change (String.eqb "OSMO_MEMB_ARRAY_PITCH" "offsetof") with false. change (String.eqb "OSMO_MEMB_ARRAY_PITCH" "OSMO_MEMB_ARRAY_PITCH") with true. cbn match. rewrite offset_tree. reflexivity. Qed.
Lemma ftype_refl t : ftype_eqb t t = true.
Proof.
  unfold ftype_eqb. assert (A : forall c, ctype_eqb c c = true) by (intros c; unfold ctype_eqb; destruct (list_eq_dec String.string_dec c c); [reflexivity|easy]).
  rewrite A. cbn [andb]. induction (snd t) as [|x l IH]; [reflexivity|]. cbn [ctypes_eqb]. rewrite A. exact IH.
Qed.
Lemma fun_ref_ok ns t f : get f ns = Some (Some t) -> fun_ref ns t [I f] = Some f.
Proof. intros H. unfold fun_ref. rewrite H, ftype_refl. reflexivity. Qed.
Lemma fun_ref_no ns t f : (forall t', get f ns <> Some (Some t')) -> fun_ref ns t [I f] = None.
Proof. intros H. unfold fun_ref. destruct (get f ns) as [[t'|]|]; [destruct (H t' eq_refl)|reflexivity|reflexivity]. Qed.
Section Fields.
Variables k n : string.
Variable e : centry.
Local Notation F := (parts_fields k n e).
Ltac cases := unfold parts_fields; destruct (ce_kind e) as [t|[a b [s|]]], (ce_multi e) as [[[mx mand] c]|], (ce_flag e) as [p|]; reflexivity.
Lemma fields_fine : (nodupb (map fst F) && forallb (fun f => existsb (String.eqb (fst f)) coding_fields) F)%bool = true. Proof. cases. Qed.
Lemma f_ofs : get "memb_ofs" F = Some (off_tree "offsetof" k n (ce_sub e) (ce_memb e)). Proof. reflexivity. Qed.
Lemma f_pitch : get "memb_array_pitch" F = match ce_multi e with Some _ => Some (off_tree "OSMO_MEMB_ARRAY_PITCH" k n (ce_sub e) (ce_memb e)) | None => None end. Proof. cases. Qed.
Lemma f_hc : get "has_count" F = match ce_multi e with Some _ => Some [I "true"] | None => None end. Proof. cases. Qed.
Lemma f_max : get "count_max" F = match ce_multi e with Some (mx, _, _) => Some [Nm (dec_str mx)] | None => None end. Proof. cases. Qed.
Lemma f_mand : get "count_mandatory" F = match ce_multi e with Some (_, mand, _) => Some [Nm (dec_str mand)] | None => None end. Proof. cases. Qed.
Lemma f_cofs : get "count_ofs" F = match ce_multi e with Some (_, _, c) => Some (off_tree "offsetof" k n (ce_sub e) c) | None => None end. Proof. cases. Qed.
Lemma f_hp : get "has_presence_flag" F = match ce_flag e with Some _ => Some [I "true"] | None => None end. Proof. cases. Qed.
Lemma f_pofs : get "presence_flag_ofs" F = match ce_flag e with Some p => Some (off_tree "offsetof" k n (ce_sub e) p) | None => None end. Proof. cases. Qed.
Lemma f_nest : get "nested_ies" F = match ce_kind e with inl t => Some [I t] | inr _ => None end. Proof. cases. Qed.
Lemma f_dec : get "dec_func" F = match ce_kind e with inl t => None | inr f => Some [I (fn_dec f)] end. Proof. cases. Qed.
Lemma f_enc : get "enc_func" F = match ce_kind e with inl t => None | inr f => Some [I (fn_enc f)] end. Proof. cases. Qed.
Lemma f_str : get "enc_to_str_func" F = match ce_kind e with inl t => None | inr f => match fn_str f with Some s => Some [I s] | None => None end end. Proof. cases. Qed.
End Fields.
Lemma coding_read te ce ns ex tb e l : ent ce e l -> agree ns ex (ce_kind e) -> ce_tag e <> "true" ->
  read_coding te ce ns tb l = cc_entry te ce ex tb e.
Proof.
  intros (id & k & n & Eo & Hi & Hs) Ha Ht. unfold read_coding. rewrite Hs. unfold entry_parts. cbn [obind]. rewrite fields_read. rewrite (ti_read te ce id _ _ Hi Ht). clear Hs.
  unfold cc_entry. rewrite Eo. clear Eo Hi Ht.
  destruct (ce (ce_tag e)) as [tag|]; [|reflexivity]. cbn [obind].
  destruct (match ce_inst e with None => Some None | Some x => v <-? ce x ;; Some (Some v) end) as [inst|]; [|reflexivity]. cbn [obind].
  set (OF := offset_of te (k ++ " " ++ n)).
  assert (Q : forall f, const_expr te ce (off_tree "offsetof" k n (ce_sub e) f) = (o <-? OF (ce_sub e) f ;; Some (fst o))) by (intros f; apply const_offset).
  assert (Q2 : forall f, const_expr te ce (off_tree "OSMO_MEMB_ARRAY_PITCH" k n (ce_sub e) f) = (o <-? OF (ce_sub e) f ;; if fi_n (snd o) then Some (fi_elem (snd o)) else None)) by (intros f; apply const_pitch).
  assert (Q3 : forall x, const_expr te ce [Nm (dec_str x)] = Some x) by (intros x; exact (number_dec x)).
  assert (Q5 : forall m, designated te ([I k; I n; Pu Comma] ++ memb_tree (ce_sub e) m) = OF (ce_sub e) m) by (intros m; apply offset_tree).
  assert (Q4 : const_expr te ce [I "true"] = Some 1%N) by reflexivity.
  rewrite fields_fine. unfold field_num. rewrite f_ofs, f_pitch, f_hc, f_max, f_mand, f_cofs, f_hp, f_pofs, f_nest, f_dec, f_enc, f_str. clearbody OF.
  rewrite Q. destruct (OF (ce_sub e) (ce_memb e)) as [o|] eqn:EO; [|reflexivity]. cbn [obind].
  set (multi := match ce_multi e with None => Some None | Some (mx, mand, c) => co <-? OF (ce_sub e) c ;; _ <-? fi_n (snd o) ;; Some (Some (mx, mand, fst co)) end).
  set (flag := match ce_flag e with None => Some None | Some p => po <-? OF (ce_sub e) p ;; Some (Some (fst po)) end).
  destruct (ce_kind e) as [t|f] eqn:EK.
  - destruct (get t tb) as [ies|]; cbn [obind];
    (subst multi flag; destruct (ce_multi e) as [[[mx mand] c]|], (ce_flag e) as [p|]; rewrite ?Q4, ?Q3, ?Q2, ?Q, ?EO; cbn [obind];
      unfold off_tree; rewrite ?Q5, ?EO; cbn [obind];
      repeat match goal with |- context [OF ?a ?b] => destruct (OF a b); cbn [obind]; try reflexivity end;
      try reflexivity; destruct (fi_n (snd o)); cbn [obind]; reflexivity).
  - cbn [agree] in Ha. destruct (existsb (fun g => String.eqb (fn_dec g) (fn_dec f)) ex).
    + destruct Ha as (H1 & H2 & H3). rewrite (fun_ref_ok _ _ _ H1), (fun_ref_ok _ _ _ H2). cbn [obind].
      assert (ES : match match fn_str f with Some s => Some [I s] | None => None end with None => Some None | Some s => x <-? fun_ref ns str_type s ;; Some (Some x) end = Some (fn_str f)).
      { destruct (fn_str f) as [s|]; [|reflexivity]. rewrite (fun_ref_ok _ _ _ (H3 s eq_refl)). reflexivity. }
      rewrite ES. cbn [obind]. clear ES. destruct f as [fa fb fc]. cbn [fn_dec fn_enc fn_str].
      subst multi flag; destruct (ce_multi e) as [[[mx mand] c]|], (ce_flag e) as [p|]; rewrite ?Q4, ?Q3, ?Q2, ?Q, ?EO; cbn [obind];
      repeat match goal with |- context [OF ?a ?b] => destruct (OF a b); cbn [obind]; try reflexivity end;
      try reflexivity; destruct (fi_n (snd o)); cbn [obind]; reflexivity.
    + rewrite (fun_ref_no _ _ _ Ha). cbn [obind].
      subst multi flag; destruct (ce_multi e) as [[[mx mand] c]|], (ce_flag e) as [p|]; rewrite ?Q4, ?Q3, ?Q2, ?Q, ?EO; cbn [obind];
      repeat match goal with |- context [OF ?a ?b] => destruct (OF a b); cbn [obind]; try reflexivity end;
      try reflexivity; destruct (fi_n (snd o)); cbn [obind]; reflexivity.
Qed.

(* ---------------------------------------------------------------- names *)
Section Names.
Variable tc : tcfg.
Variable ce : string -> option N.
Variable ms : list gmsg.
Variable e : ctype.
Hypothesis HP : printable tc ce ms.
Local Notation cfg := (tc_gen tc).
Local Notation proto := (gc_proto (tc_gen tc)).
Definition leaf_ie (i : gie) : Prop := In i (all_ies ms) /\ gn i = None.
Inductive shape : string -> ftype -> Prop :=
| sh_get : shape "_get_msg_coding" (fun_type (get_fun proto e None))
| sh_idec : shape "_ies_decode" (fun_type (dec_fun proto e None))
| sh_ienc : shape "_ies_encode" (fun_type (enc_fun proto e None))
| sh_istr : shape "_ies_encode_to_str" (fun_type (str_fun proto e None))
| sh_dec i : leaf_ie i -> shape ("_dec_" ++ decenc i)%string dec_type
| sh_enc i : leaf_ie i -> shape ("_enc_" ++ decenc i)%string enc_type
| sh_str i : leaf_ie i -> gc_str cfg = true -> shape ("_enc_to_str_" ++ decenc i)%string str_type.
Lemma shape_type s t t' : shape s t -> shape s t' -> t = t'.
Proof.
  assert (X : forall i j, leaf_ie i -> leaf_ie j -> gc_str cfg = true -> ("_enc_" ++ decenc i)%string <> ("_enc_to_str_" ++ decenc j)%string).
  { intros i j [I1 I2] [J1 J2] G0 E. apply (app_inj_prefix "_enc_" (decenc i) ("to_str_" ++ decenc j)) in E. exact (p_tostr tc ce ms HP G0 i j I1 J1 I2 J2 E). }
  intros A B. destruct A as [| | | |i Hi|i Hi|i Hi Gi]; inversion B as [Q|Q|Q|Q|j Hj E|j Hj E|j Hj G0 E]; subst; try reflexivity; exfalso.
  - exact (X _ _ Hi Hj G0 (f_equal (append "_enc_") (eq_sym E))).
  - exact (X _ _ Hj Hi Gi (f_equal (append "_enc_") E)).
Qed.
Definition known (f : cfun) : Prop := exists s, fu_name f = (proto ++ s)%string /\ shape s (fun_type f).
Lemma known_type f g : known f -> known g -> fu_name f = fu_name g -> fun_type f = fun_type g.
Proof.
  intros (a & A1 & A2) (b & B1 & B2) E. rewrite A1, B1 in E. apply app_inj_prefix in E. subst b. exact (shape_type a _ _ A2 B2).
Qed.
Lemma known_table f t : known f -> fu_name f <> ies_in t.
Proof.
  intros (s & -> & S0). assert (S1 : exists s', s = String "_" s' /\ forall z, s' <> ("in_" ++ z)%string) by (destruct S0; eexists; (split; [reflexivity|discriminate])).
  destruct S1 as (s' & -> & S1). pose proof (p_tables tc ce ms HP) as T0. revert T0. generalize proto. intros q T0 E. unfold ies_in in E.
  do 3 (destruct q as [|c q]; [discriminate E|]; injection E as -> E).
  destruct q as [|c q]; [injection E as E; exact (S1 t E)|]. injection E as -> E.
  do 2 (destruct q as [|c q]; [discriminate E|]; injection E as -> E). assert (T1 : prefix "ies_in" ("ies_in" ++ q) = true) by (destruct q; reflexivity). cbn [append] in T1. congruence.
Qed.
Lemma known_defs f : known f -> fu_name f <> "msg_defs".
Proof.
  intros (s & -> & S0). assert (S1 : exists s', s = String "_" s' /\ s' <> "defs") by (destruct S0; eexists; (split; [reflexivity|discriminate])).
  destruct S1 as (s' & -> & S1). generalize proto. intros q E.
  do 3 (destruct q as [|c q]; [discriminate E|]; injection E as -> E).
  destruct q as [|c q]; [injection E as E; exact (S1 E)|]. injection E as -> E.
  do 4 (destruct q as [|c q]; [discriminate E|]; injection E as -> E). destruct q; discriminate E.
Qed.
Lemma known_api f : In f (api_protos proto e) -> known f.
Proof. intros [<-|[<-|[<-|[<-|[]]]]]; eexists; (split; [reflexivity|constructor]). Qed.
Lemma known_extern i f : leaf_ie i -> In f (extern_funs (fns_of cfg i)) -> known f.
Proof.
  intros L0 H. unfold extern_funs, fns_of in H. cbn [fn_dec fn_enc fn_str] in H. apply in_app_or in H as [[<-|[<-|[]]]|H].
  - eexists. split; [reflexivity|]. exact (sh_dec i L0).
  - eexists. split; [reflexivity|]. exact (sh_enc i L0).
  - destruct (gc_str cfg) eqn:G0; [|destruct H]. destruct H as [<-|[]]. eexists. split; [reflexivity|]. exact (sh_str i L0 G0).
Qed.

(* functions and tables that have been declared *)
Definition nsok (ns : names) (F : list cfun) (tb : tables) : Prop :=
  forall x v, get x ns = Some v <-> (exists g, In g F /\ x = fu_name g /\ v = Some (fun_type g)) \/ (has x tb = true /\ v = None).
Definition tables_ok (tb : tables) : Prop := forall x, has x tb = true -> exists t, x = ies_in t.
Lemma nsok_equiv ns F F' tb : (forall g, In g F <-> In g F') -> nsok ns F tb -> nsok ns F' tb.
Proof.
  intros H A x v. rewrite (A x v). split; (intros [(g & G1 & G2)|G1]; [left; exists g; split; [apply H; exact G1|exact G2]|right; exact G1]).
Qed.
Lemma declare_ok ns F tb f : nsok ns F tb -> Forall known F -> tables_ok tb -> known f -> exists ns', declare ns f = Some ns' /\ nsok ns' (f :: F) tb.
Proof.
  intros A HF HT Hf. unfold declare. destruct (get (fu_name f) ns) as [v|] eqn:E.
  - apply A in E as [(g & G1 & G2 & ->)|[G1 _]].
    + assert (ET : fun_type g = fun_type f) by (apply known_type; [exact (proj1 (Forall_forall _ _) HF g G1)|exact Hf|symmetry; exact G2]).
      rewrite ET, ftype_refl. exists ns. split; [reflexivity|]. intros x v. rewrite (A x v). split.
      * intros [(h & H1 & H2)|H1]; [left; exists h; split; [right; exact H1|exact H2]|right; exact H1].
      * intros [(h & [<-|H1] & H2 & H3)|H1]; [left; exists g; split; [exact G1|]; split; congruence|left; exists h; split; [exact H1|split; assumption]|right; exact H1].
    + destruct (HT _ G1) as (t & Et). destruct (known_table f t Hf Et).
  - exists ((fu_name f, Some (fun_type f)) :: ns). split; [reflexivity|]. intros x v. rewrite get_cons. destruct (String.eqb_spec (fu_name f) x) as [<-|Hne].
    + split.
      * intros [= <-]. left. exists f. split; [left; reflexivity|split; reflexivity].
      * intros [(h & [<-|H1] & H2 & ->)|[H1 H2]]; [reflexivity| |].
        { assert (X : get (fu_name f) ns = Some (Some (fun_type h))) by (apply A; left; exists h; split; [exact H1|split; [exact H2|reflexivity]]). congruence. }
        { assert (X : get (fu_name f) ns = Some None) by (apply A; right; split; [exact H1|reflexivity]). congruence. }
    + rewrite (A x v). split.
      * intros [(h & H1 & H2)|H1]; [left; exists h; split; [right; exact H1|exact H2]|right; exact H1].
      * intros [(h & [<-|H1] & H2 & H3)|H1]; [destruct (Hne (eq_sym H2))|left; exists h; split; [exact H1|split; assumption]|right; exact H1].
Qed.
Lemma nsok_table ns F tb t ds : nsok ns F tb -> has t tb = false -> Forall known F -> (exists z, t = ies_in z) -> nsok ((t, None) :: ns) F ((t, ds) :: tb).
Proof.
  intros A Ht HF (z & Hz) x v. rewrite get_cons. unfold has. cbn [existsb fst]. fold (has x tb). destruct (String.eqb_spec t x) as [<-|Hne].
  - split; [intros [= <-]; right; split; reflexivity|]. intros [(g & G1 & G2 & _)|[_ ->]]; [|reflexivity]. destruct (known_table g z (proj1 (Forall_forall _ _) HF g G1)). congruence.
  - cbn [orb]. exact (A x v).
Qed.
Lemma nsok_has ns F tb t : nsok ns F tb -> Forall known F -> (exists z, t = ies_in z) -> has t ns = has t tb.
Proof.
  intros A HF (z & Hz). apply Bool.eq_true_iff_eq. rewrite has_get. split.
  - intros H. destruct (get t ns) as [v|] eqn:E; [|destruct (H eq_refl)]. apply A in E as [(g & G1 & G2 & _)|[G1 _]]; [|exact G1].
    destruct (known_table g z (proj1 (Forall_forall _ _) HF g G1)). congruence.
  - intros H E. assert (X : get t ns = Some None) by (apply A; right; split; [exact H|reflexivity]). congruence.
Qed.

(* the functions that have been declared, by the generator's record of them *)
Definition funs_of (ex : list fns) : list cfun := api_protos proto e ++ flat_map extern_funs ex.
Definition ex_ok (ex : list fns) : Prop := Forall (fun f => exists i, leaf_ie i /\ f = fns_of cfg i) ex.
Lemma funs_known ex : ex_ok ex -> Forall known (funs_of ex).
Proof.
  intros H. apply Forall_app. split; [apply Forall_forall; exact known_api|]. apply Forall_forall. intros f Hf. apply in_flat_map in Hf as (x & X1 & X2).
  destruct (proj1 (Forall_forall _ _) H x X1) as (i & L0 & ->). exact (known_extern i f L0 X2).
Qed.
Lemma agree_ok ns ex tb i : nsok ns (funs_of ex) tb -> ex_ok ex -> leaf_ie i -> agree ns ex (inr (fns_of cfg i)).
Proof.
  intros A HE L0. cbn [agree]. destruct (existsb _ ex) eqn:Ex.
  - apply existsb_exists in Ex as (x & X1 & X2). apply String.eqb_eq in X2. destruct (proj1 (Forall_forall _ _) HE x X1) as (j & J0 & ->).
    assert (E : decenc j = decenc i). { unfold fns_of in X2. cbn [fn_dec] in X2. apply app_inj_prefix in X2. exact (app_inj_prefix "_dec_" _ _ X2). }
    assert (EF : fns_of cfg j = fns_of cfg i) by (unfold fns_of; rewrite E; reflexivity). rewrite EF in X1. clear X2 E EF.
    assert (Z : forall g, In g (extern_funs (fns_of cfg i)) -> get (fu_name g) ns = Some (Some (fun_type g))).
    { intros g Hg. apply A. left. exists g. split; [|split; reflexivity]. apply in_or_app. right. apply in_flat_map. exists (fns_of cfg i). split; assumption. }
    split; [exact (Z _ (or_introl eq_refl))|]. split; [exact (Z _ (or_intror (or_introl eq_refl)))|]. intros s Hs. unfold extern_funs in Z. rewrite Hs in Z.
    exact (Z _ (or_intror (or_intror (or_introl eq_refl)))).
  - intros t Ht. apply A in Ht as [(g & G1 & G2 & _)|[_ Ht]]; [|discriminate Ht]. apply in_app_or in G1 as [G1|G1].
    + unfold fns_of in G2. cbn [fn_dec] in G2. destruct G1 as [<-|[<-|[<-|[<-|[]]]]]; cbn [fu_name get_fun dec_fun enc_fun str_fun] in G2; apply app_inj_prefix in G2; discriminate G2.
    + apply in_flat_map in G1 as (x & X1 & X2). destruct (proj1 (Forall_forall _ _) HE x X1) as (j & J0 & ->).
      assert (Q : fu_name g = (proto ++ "_dec_" ++ decenc i)%string) by (symmetry; exact G2).
      unfold extern_funs, fns_of in X2. cbn [fn_dec fn_enc fn_str] in X2. apply in_app_or in X2 as [[<-|[<-|[]]]|X2].
      * assert (B : existsb (fun g => String.eqb (fn_dec g) (fn_dec (fns_of cfg i))) ex = true) by (apply existsb_exists; exists (fns_of cfg j); split; [exact X1|apply String.eqb_eq; exact Q]). congruence.
      * apply app_inj_prefix in Q. discriminate Q.
      * destruct (gc_str cfg); [|destruct X2]. destruct X2 as [<-|[]]. apply app_inj_prefix in Q. discriminate Q.
Qed.
Lemma upper_small s r c : upper s = String c r -> (97 <= N_of_ascii c <= 122)%N -> False.
Proof.
  destruct s as [|d s]; [discriminate|]. cbn [upper]. intros [= <- _]. unfold up. destruct (N.leb 97 (N_of_ascii d) && N.leb (N_of_ascii d) 122)%bool eqn:E.
  - apply andb_prop in E as [E1 E2]. apply N.leb_le in E1, E2. rewrite N_ascii_embedding by lia. lia.
  - intros H. apply Bool.andb_false_iff in E as [E|E]; apply N.leb_gt in E; lia.
Qed.
Lemma tag_not_true s : (gc_tagp cfg ++ toupper s)%string <> "true".
Proof.
  pose proof (proj2 (p_tagp tc ce ms HP)) as T0. revert T0. generalize (gc_tagp cfg). intros q T0 E. unfold toupper in E.
  do 4 (destruct q as [|c q]; [cbn [append] in E; exact (upper_small _ _ _ E ltac:(cbn; lia))|]; injection E as -> E).
  destruct q; [exact (T0 eq_refl)|discriminate E].
Qed.
End Names.

(* ---------------------------------------------------------------- the C file *)
Lemma codings_read te ce ns ex tb es ls : Forall2 (ent ce) es ls -> Forall (fun e => agree ns ex (ce_kind e) /\ ce_tag e <> "true") es ->
  read_codings te ce ns tb (map (fun l => [G Brc l]) ls ++ [[G Brc []]]) = cc_entries te ce ex tb es.
Proof.
  induction 1 as [|e l es ls H1 H2 IH]; intros F; [reflexivity|]. inversion F as [|? ? [F1 F2] F3]; subst. cbn [map app cc_entries].
  rewrite <- (coding_read te ce ns ex tb e l H1 F1 F2), <- (IH F3). destruct l as [|x l]; [destruct H1 as (id & k & n & _ & _ & H1); discriminate H1|]. reflexivity.
Qed.
Lemma c_items_app te ce a : forall u b, c_items te ce u (a ++ b) = (u' <-? c_items te ce u a ;; c_items te ce u' b).
Proof. induction a as [|x a IH]; intros u b; [reflexivity|]. cbn [app c_items]. destruct (c_item te ce u x) as [u'|]; [exact (IH u' b)|reflexivity]. Qed.
Section Items.
Variable tc : tcfg.
Variable ce : string -> option N.
Variable ms : list gmsg.
Variable e : ctype.
Hypothesis HP : printable tc ce ms.
Variable te : tenv.
Local Notation cfg := (tc_gen tc).
Local Notation proto := (gc_proto (tc_gen tc)).
Definition item_ok (c : citem) : Prop :=
  match c with
  | CExtern f => exists i, leaf_ie ms i /\ f = fns_of cfg i
  | CTable t es => (exists z, t = ies_in z) /\ Forall (fun x => exists obj sub i, In i (all_ies ms) /\ x = ie_entry cfg obj sub i) es
  | CMsgDefs _ => False
  end.
Lemma entries_agree ns ex tb es : nsok ns (funs_of tc e ex) tb -> ex_ok tc ms ex -> Forall (fun x => exists obj sub i, In i (all_ies ms) /\ x = ie_entry cfg obj sub i) es ->
  Forall (fun x => agree ns ex (ce_kind x) /\ ce_tag x <> "true") es.
Proof.
  intros A B F. eapply Forall_impl; [|exact F]. intros x (obj & sub & i & Hi & ->). split; [|exact (tag_not_true tc ce ms HP _)].
  unfold ie_entry. cbn [ce_kind]. destruct (gn i) eqn:G0; [exact Logic.I|]. exact (agree_ok tc ms e ns ex tb i A B (conj Hi G0)).
Qed.
Definition mk (ns : names) (tb : tables) : unit_ := mkUnit ns tb None [].
Lemma protos_run fs ns F tb : Forall (known tc ms e) fs -> Forall (fun f => fu_body f = None) fs -> nsok ns F tb -> Forall (known tc ms e) F -> tables_ok tb ->
  exists ns', c_items te ce (mk ns tb) (map IFun fs) = Some (mk ns' tb) /\ nsok ns' (rev fs ++ F) tb.
Proof.
  revert ns F. induction fs as [|f fs IH]; intros ns F K0 B A HF HT; [exists ns; split; [reflexivity|exact A]|]. inversion K0; inversion B; subst.
  destruct (declare_ok tc ce ms e HP ns F tb f A HF HT) as (ns1 & D1 & D2); [assumption|].
  destruct (IH ns1 (f :: F)) as (ns' & R1 & R2); [assumption|assumption|exact D2|constructor; assumption|exact HT|].
  exists ns'. split; [|cbn [rev]; rewrite <- app_assoc; exact R2]. cbn [map c_items c_item]. unfold mk at 1. cbn [un_names un_tables un_defs un_funs]. rewrite D1. cbn [obind].
  match goal with H : fu_body f = None |- _ => rewrite H end. cbn [obind]. exact R1.
Qed.
Lemma items_run cs iss : Forall2 (ci ce) cs iss -> Forall item_ok cs -> forall ns ex tb, nsok ns (funs_of tc e ex) tb -> ex_ok tc ms ex -> tables_ok tb ->
  match cc_run ce te ex tb cs with
  | Some (ex', tb') => exists ns', c_items te ce (mk ns tb) (concat iss) = Some (mk ns' tb') /\ nsok ns' (funs_of tc e ex') tb' /\ ex_ok tc ms ex' /\ tables_ok tb'
  | None => c_items te ce (mk ns tb) (concat iss) = None
  end.
Proof.
  induction 1 as [|c is cs iss C0 Cs IH]; intros F ns ex tb A HE HT.
  { exists ns. split; [reflexivity|]. split; [exact A|]. split; assumption. }
  inversion F as [|? ? F1 F2]; subst. specialize (IH F2). destruct c as [f|t es|l]; [| |destruct F1]; cbn [concat cc_run ci item_ok] in *.
  - destruct F1 as (i & L0 & ->). subst is.
    destruct (protos_run (extern_funs (fns_of cfg i)) ns (funs_of tc e ex) tb) as (ns1 & R1 & R2); [|apply Forall_forall; unfold extern_funs; intros g Hg|exact A|exact (funs_known tc ms e ex HE)|exact HT|].
    { apply Forall_forall. intros g Hg. exact (known_extern tc ms e i g L0 Hg). }
    { apply in_app_or in Hg as [[<-|[<-|[]]]|Hg]; [reflexivity|reflexivity|]. destruct (fn_str (fns_of cfg i)); [|destruct Hg]. destruct Hg as [<-|[]]. reflexivity. }
    rewrite c_items_app, R1. cbn [obind]. refine (IH ns1 (fns_of cfg i :: ex) tb _ (Forall_cons _ (ex_intro _ i (conj L0 eq_refl)) HE) HT).
    refine (nsok_equiv _ _ _ _ _ R2). intros g. unfold funs_of. cbn [flat_map]. rewrite !in_app_iff, <- in_rev. tauto.
  - destruct F1 as [Z F1]. destruct C0 as (ls & L1 & ->). cbn [app c_items c_item]. unfold mk. cbn [un_names un_tables un_defs un_funs].
    rewrite (nsok_has tc ce ms e HP ns (funs_of tc e ex) tb t A (funs_known tc ms e ex HE) Z). destruct (has t tb) eqn:Eh; [reflexivity|].
    change (ctype_eqb table_type table_type) with true. cbn match. rewrite (codings_read te ce ns ex tb es ls L1 (entries_agree ns ex tb es A HE F1)).
    destruct (cc_entries te ce ex tb es) as [ds|]; [|reflexivity]. cbn [obind]. refine (IH ((t, None) :: ns) ex ((t, ds) :: tb) _ HE _).
    + exact (nsok_table tc ce ms e HP ns (funs_of tc e ex) tb t ds A Eh (funs_known tc ms e ex HE) Z).
    + intros x Hx. unfold has in Hx. cbn [existsb fst] in Hx. fold (has x tb) in Hx. destruct (String.eqb t x) eqn:Et; [apply String.eqb_eq in Et; rewrite <- Et; exact Z|exact (HT x Hx)].
Qed.
End Items.

(* ---------------------------------------------------------------- what the generator writes *)
Lemma walk_msgs_forall' {X} (P : X -> Prop) f l : (forall m, In m l -> forall i, In i (snd m) -> forall s a, f i s = Some a -> Forall P (fst a)) ->
  forall s a, walk_msgs f l s = Some a -> Forall P (fst a).
Proof.
  induction l as [|m l IH]; intros H s a Ha; cbn [walk_msgs] in Ha; [injection Ha as <-; constructor|]. ob Ha x Hx. ob Ha y Hy. injection Ha as <-. cbn [fst].
  apply Forall_app. split; [exact (walk_forall P f _ (H m (or_introl eq_refl)) _ _ Hx)|]. exact (IH (fun n Hn => H n (or_intror Hn)) _ _ Hy).
Qed.
Section Written.
Variable tc : tcfg.
Variable ms : list gmsg.
Local Notation cfg := (tc_gen tc).
Local Notation IOK := (item_ok tc ms).
Lemma externs_ok i : (forall j, In j (occs i) -> In j (all_ies ms)) -> forall s a, externs cfg i s = Some a -> Forall IOK (fst a).
Proof.
  revert i. apply (gie_ind' (fun i => (forall j, In j (occs i) -> In j (all_ies ms)) -> forall s a, externs cfg i s = Some a -> Forall IOK (fst a))).
  - intros m d H s a Ha. cbn [externs] in Ha. ob Ha b Hb. injection Ha as <-. cbn [fst]. destruct (fst b); [constructor|]. constructor; [|constructor].
    exists (GIe m d None). split; [split; [exact (H _ (occs_self _))|reflexivity]|reflexivity].
  - intros m d ies IH H s a Ha. cbn [externs] in Ha. revert Ha. apply walk_forall. intros j Hj.
    exact (proj1 (Forall_forall _ _) IH j Hj (fun k Hk => H k (occs_nested m d ies j k Hj Hk))).
Qed.
Lemma nested_ok i : (forall j, In j (occs i) -> In j (all_ies ms)) -> forall s a, nested_tables cfg i s = Some a -> Forall IOK (fst a).
Proof.
  revert i. apply (gie_ind' (fun i => (forall j, In j (occs i) -> In j (all_ies ms)) -> forall s a, nested_tables cfg i s = Some a -> Forall IOK (fst a))).
  - intros m d H s a Ha. cbn [nested_tables] in Ha. injection Ha as <-. constructor.
  - intros m d ies IH H s a Ha. cbn [nested_tables] in Ha. ob Ha x Hx. ob Ha b Hb. injection Ha as <-. cbn [fst]. apply Forall_app. split.
    + revert Hx. apply walk_forall. intros j Hj. exact (proj1 (Forall_forall _ _) IH j Hj (fun k Hk => H k (occs_nested m d ies j k Hj Hk))).
    + destruct (fst b); [constructor|]. constructor; [|constructor]. split; [eexists; reflexivity|]. apply Forall_map. apply Forall_forall. intros j Hj. eexists _, _, j.
      split; [exact (H j (occs_nested m d ies j j Hj (occs_self j)))|reflexivity].
Qed.
Lemma gen_c_ok cs : gen_c cfg ms = Some cs -> exists cs', cs = cs' ++ [msg_defs_item cfg ms] /\ Forall IOK cs'.
Proof.
  intros H. unfold gen_c in H. ob H a Ha. ob H b Hb. injection H as <-. exists (fst a ++ fst b ++ map (msg_table_item cfg) ms). split; [rewrite <- !app_assoc; reflexivity|].
  apply Forall_app. split; [|apply Forall_app; split].
  - exact (walk_msgs_forall' IOK _ ms (fun m Hm i Hi => externs_ok i (fun j Hj => all_occs ms m i j Hm Hi Hj)) _ _ Ha).
  - exact (walk_msgs_forall' IOK _ ms (fun m Hm i Hi => nested_ok i (fun j Hj => all_occs ms m i j Hm Hi Hj)) _ _ Hb).
  - apply Forall_map. apply Forall_forall. intros m Hm. split; [exists ("msg_" ++ fst m)%string; reflexivity|]. apply Forall_map. apply Forall_forall. intros i Hi. eexists _, _, i.
    split; [exact (all_occs ms m i i Hm Hi (occs_self i))|reflexivity].
Qed.
End Written.

(* ---------------------------------------------------------------- the whole *)
Lemma header_run hs its : Forall2 hi hs its -> forall te ns rest, c_header te ns (its ++ rest) = (te' <-? cc_h te hs ;; c_header te' ns rest).
Proof.
  induction 1 as [|h i hs its H1 H2 IH]; intros te ns rest; [reflexivity|]. cbn [app cc_h].
  assert (E : c_header te ns (i :: its ++ rest) = (te' <-? cc_hitem te h ;; c_header te' ns (its ++ rest))).
  { destruct h as [t m|t m]; destruct H1 as (n & -> & ->); reflexivity. }
  rewrite E. destruct (cc_hitem te h) as [te'|]; [exact (IH te' ns rest)|reflexivity].
Qed.
Lemma cc_c_none te ce cs cs' : Forall no_defs cs -> forall ex tb, cc_run ce te ex tb cs = None -> cc_c te ce ex tb (cs ++ cs') = None.
Proof.
  induction 1 as [|c cs Hc Hcs IH]; intros ex tb H; [discriminate H|]. cbn [app]. destruct c as [f|t es|l]; [| |destruct Hc]; cbn [cc_c cc_run] in *; [exact (IH _ _ H)|].
  destruct (has t tb); [reflexivity|]. destruct (cc_entries te ce ex tb es); [exact (IH _ _ H)|reflexivity].
Qed.
Lemma index_read l : omap read_index (map index_tree l) = Some l.
Proof. induction l as [|[a b] l IH]; [reflexivity|]. cbn [map omap index_tree read_index fst snd obind]. rewrite IH. reflexivity. Qed.
Section Whole.
Variable tc : tcfg.
Variable ce : string -> option N.
Variable ms : list gmsg.
Variable e : ctype.
Hypothesis HP : printable tc ce ms.
Local Notation cfg := (tc_gen tc).
Local Notation proto := (gc_proto (tc_gen tc)).
Lemma protos_header te fs : forall ns F, Forall (known tc ms e) fs -> Forall (fun f => fu_body f = None) fs -> nsok ns F [] -> Forall (known tc ms e) F ->
  exists ns', c_header te ns (map IFun fs) = Some (te, ns') /\ nsok ns' (rev fs ++ F) [].
Proof.
  induction fs as [|f fs IH]; intros ns F K0 B A HF; [exists ns; split; [reflexivity|exact A]|]. inversion K0 as [|? ? K1 K2]; inversion B as [|? ? B1 B2]; subst.
  destruct (declare_ok tc ce ms e HP ns F [] f A HF ltac:(discriminate) K1) as (ns1 & D1 & D2).
  destruct (IH ns1 (f :: F) K2 B2 D2 (Forall_cons _ K1 HF)) as (ns' & R1 & R2).
  exists ns'. split; [|cbn [rev]; rewrite <- app_assoc; exact R2]. cbn [map c_header]. destruct f as [r n ps b]. cbn [fu_body] in B1. subst b. rewrite D1. cbn [obind]. exact R1.
Qed.
Lemma api_known : Forall (known tc ms e) (api_protos proto e).
Proof. apply Forall_forall. exact (known_api tc ms e). Qed.
(* the definitions of the functions: they have been declared *)
Lemma api_run te ns ex tb defs : nsok ns (funs_of tc e ex) tb ->
  c_items te ce (mkUnit (("msg_defs", None) :: ns) tb (Some defs) []) (map IFun (api_funs proto e)) = Some (mkUnit (("msg_defs", None) :: ns) tb (Some defs) (rev (api_funs proto e))).
Proof.
  intros A. assert (D : forall f g, In g (api_protos proto e) -> fu_name f = fu_name g -> fun_type f = fun_type g -> declare (("msg_defs", None) :: ns) f = Some (("msg_defs", None) :: ns)).
  { intros f g Hg E1 E2. unfold declare. rewrite get_cons. destruct (String.eqb_spec "msg_defs" (fu_name f)) as [X|_].
    - destruct (known_defs tc ms e g (known_api tc ms e g Hg)). congruence.
    - assert (X : get (fu_name f) ns = Some (Some (fun_type f))). { apply A. left. exists g. split; [apply in_or_app; left; exact Hg|]. split; congruence. }
      rewrite X, ftype_refl. reflexivity. }
  assert (N0 : forall a b, a <> b -> String.eqb (proto ++ a) (proto ++ b) = false).
  { intros a b H. apply String.eqb_neq. intros E. apply app_inj_prefix in E. exact (H E). }
  assert (ST : forall f g b fs, In g (api_protos proto e) -> fu_name f = fu_name g -> fun_type f = fun_type g -> fu_body f = Some b -> existsb (fun g => String.eqb (fu_name g) (fu_name f)) fs = false ->
    c_item te ce (mkUnit (("msg_defs", None) :: ns) tb (Some defs) fs) (IFun f) = Some (mkUnit (("msg_defs", None) :: ns) tb (Some defs) (f :: fs))).
  { intros f g b fs H1 H2 H3 H4 H5. cbn [c_item un_names un_tables un_defs un_funs]. rewrite (D f g H1 H2 H3). cbn [obind]. rewrite H4, H5. reflexivity. }
  unfold api_funs. cbn [map c_items].
  rewrite (ST (get_fun proto e (Some get_body)) (get_fun proto e None) get_body []); [|left; reflexivity|reflexivity|reflexivity|reflexivity|reflexivity]. cbn [obind].
  rewrite (ST (dec_fun proto e (Some (dec_body proto))) (dec_fun proto e None) (dec_body proto)); [|right; left; reflexivity|reflexivity|reflexivity|reflexivity|
    cbn [existsb get_fun dec_fun enc_fun str_fun fu_name]; rewrite !N0 by discriminate; reflexivity]. cbn [obind].
  rewrite (ST (enc_fun proto e (Some (enc_body proto))) (enc_fun proto e None) (enc_body proto)); [|right; right; left; reflexivity|reflexivity|reflexivity|reflexivity|
    cbn [existsb get_fun dec_fun enc_fun str_fun fu_name]; rewrite !N0 by discriminate; reflexivity]. cbn [obind].
  rewrite (ST (str_fun proto e (Some (str_body proto))) (str_fun proto e None) (str_body proto)); [|right; right; right; left; reflexivity|reflexivity|reflexivity|reflexivity|
    cbn [existsb get_fun dec_fun enc_fun str_fun fu_name]; rewrite !N0 by discriminate; reflexivity]. reflexivity.
Qed.
Theorem compile_same te0 th tx : short_words e -> enum_type tc = L (String.concat " " e) -> text_h tc ms = Some th -> text_c tc ms = Some tx ->
  compile_files te0 ce th tx = option_map (fun g => mkProg (gr_types g) (gr_defs g) (rev (api_funs proto e))) (gen_and_compile cfg te0 ce ms).
Proof.
  intros He Ee Hh Hc. pose proof (header_read tc ce ms e HP He Ee) as RH. rewrite Hh in RH. pose proof (c_read tc ce ms e HP He Ee) as RC. rewrite Hc in RC.
  unfold gen_and_compile. destruct (gen_h cfg ms) as [hs|]; [|destruct RH]. destruct (gen_c cfg ms) as [cs|] eqn:EC; [|destruct RC].
  destruct RH as (its & H1 & H2). destruct RC as (iss & C1 & C2). unfold compile_files. rewrite H1, C1. cbn [obind]. rewrite (header_run hs its H2).
  destruct (cc_h te0 hs) as [te|]; [|reflexivity]. cbn [obind].
  destruct (protos_header te (api_protos proto e) [] [] api_known) as (ns & N1 & N2).
  { repeat constructor. }
  { intros x v. split; [discriminate|]. intros [(g & [] & _)|[H _]]. discriminate H. }
  { constructor. }
  rewrite N1. cbn [obind fst snd]. destruct (gen_c_ok tc ms cs EC) as (cs' & -> & OK).
  apply Forall2_app_inv_l in C2 as (iss1 & iss2 & C2 & C3 & ->). inversion C3 as [|? is ? ? C4 C5]; subst. inversion C5; subst. cbn [ci msg_defs_item] in C4. subst is.
  rewrite concat_app. cbn [concat app]. rewrite <- app_assoc, c_items_app.
  assert (NS : nsok ns (funs_of tc e []) []).
  { refine (nsok_equiv _ _ _ _ _ N2). intros g. unfold funs_of. cbn [flat_map]. rewrite !in_app_iff, <- in_rev. tauto. }
  pose proof (items_run tc ce ms e HP te cs' iss1 C2 OK ns [] [] NS (Forall_nil _) ltac:(discriminate)) as R. unfold mk in R.
  destruct (cc_run ce te [] [] cs') as [[ex tb]|] eqn:ER.
  - destruct R as (ns' & R1 & R2 & R3 & R4). rewrite R1. cbn [obind]. rewrite (cc_c_run ce te cs' _ [] [] (ex, tb) ER). cbn [fst snd cc_c]. cbn [app c_items c_item un_names un_tables un_defs un_funs].
    assert (HN : has "msg_defs" ns' = false).
    { destruct (has "msg_defs" ns') eqn:E; [|reflexivity]. apply has_get in E. destruct (get "msg_defs" ns') as [v|] eqn:E2; [|destruct (E eq_refl)]. apply R2 in E2 as [(g & G1 & G2 & _)|[G1 _]].
      - destruct (known_defs tc ms e g (proj1 (Forall_forall _ _) (funs_known tc ms e ex R3) g G1)). congruence.
      - destruct (R4 _ G1) as (z & Z). discriminate Z. }
    rewrite HN. change (ctype_eqb (table_type ++ ["*"]) table_type) with false. change (ctype_eqb (table_type ++ ["*"]) (table_type ++ ["*"]) && ("msg_defs" =? "msg_defs")%string)%bool with true. cbn match.
    rewrite index_read. cbn [obind]. unfold msg_defs_item. destruct (cc_defs ce tb _) as [defs|]; [|reflexivity]. cbn [obind].
    rewrite (api_run te ns' ex tb defs R2). cbn [obind un_defs un_funs option_map gr_types gr_defs]. reflexivity.
  - rewrite R. cbn [obind]. rewrite (cc_c_none te ce cs'); [reflexivity| |exact ER]. eapply Forall_impl; [|exact OK]. intros [?|? ?|?] H; [exact Logic.I|exact Logic.I|destruct H].
Qed.
End Whole.
