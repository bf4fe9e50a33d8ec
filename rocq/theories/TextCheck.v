(* TextCheck.v -- a check for the conditions of TextSpec.v; facts about the generated union *)
From Coq Require Import String Ascii.
From Verif Require Import Base GtlvModel DecEncModel MemModel GenModel GenSpec GenProofs CRead TextModel TextSpec.
Local Open Scope string_scope.
Local Open Scope list_scope.

Definition word_b (s : string) : bool := forallb wordc (chars s).
Definition ident_b (s : string) : bool := (word_b s && match s with String c _ => negb (digit c) | EmptyString => false end)%bool.
Lemma word_b_ok s : word_b s = true -> word s.
Proof. intros H. apply Forall_forall. intros c Hc. exact (proj1 (forallb_forall _ _) H c Hc). Qed.
Lemma ident_b_ok s : ident_b s = true -> identifier s.
Proof.
  intros H. apply Bool.andb_true_iff in H as [H1 H2]. split; [exact (word_b_ok s H1)|]. destruct s; [discriminate H2|]. apply Bool.negb_true_iff. exact H2.
Qed.
Fixpoint splitsp (s : string) : list string :=
  match s with
  | EmptyString => [""]
  | String c s' => if Ascii.eqb c " " then "" :: splitsp s' else match splitsp s' with w :: ws => String c w :: ws | [] => [String c ""] end
  end.
Lemma splitsp_ok s : splitsp s <> [] /\ String.concat " " (splitsp s) = s.
Proof.
  induction s as [|c s [IH1 IH2]]; [split; [discriminate|reflexivity]|]. cbn [splitsp]. destruct (Ascii.eqb_spec c " ") as [->|NE].
  - split; [discriminate|]. destruct (splitsp s) as [|w ws]; [destruct (IH1 eq_refl)|]. rewrite <- IH2. reflexivity.
  - destruct (splitsp s) as [|w ws]; [destruct (IH1 eq_refl)|]. split; [discriminate|]. rewrite <- IH2. destruct ws; reflexivity.
Qed.
Definition type_b (t : string) : bool := forallb ident_b (splitsp t).
Lemma type_b_ok t : type_b t = true -> type_text t.
Proof.
  intros H. destruct (splitsp_ok t) as [S1 S2]. exists (splitsp t). split; [exact S1|]. split; [|symmetry; exact S2].
  apply Forall_forall. intros w Hw. apply ident_b_ok. exact (proj1 (forallb_forall _ _) H w Hw).
Qed.
Definition short_b (t : string) : bool := match splitsp t with [a] => ident_b a | [a; b] => (ident_b a && ident_b b)%bool | _ => false end.
Lemma short_b_ok t : short_b t = true -> short_type t.
Proof.
  unfold short_b. destruct (splitsp_ok t) as [_ S2]. destruct (splitsp t) as [|a [|b [|]]]; try discriminate; intros H.
  - left. cbn [String.concat] in S2. rewrite <- S2. exact (ident_b_ok a H).
  - right. apply Bool.andb_true_iff in H as [A B]. exists a, b. split; [exact (ident_b_ok a A)|]. split; [exact (ident_b_ok b B)|]. rewrite <- S2. reflexivity.
Qed.
Definition no_star (s : string) : bool := forallb (fun c => negb (N.eqb (code c) 42)) (chars s).
Lemma chars_app a b : chars (a ++ b)%string = chars a ++ chars b.
Proof. unfold chars. induction a as [|c a IH]; [reflexivity|]. cbn [String.append list_ascii_of_string app]. rewrite IH. reflexivity. Qed.
Lemma no_star_ok s : no_star s = true -> comment_safe s.
Proof.
  intros H a b ->. unfold no_star in H. rewrite chars_app, forallb_app in H. apply Bool.andb_true_iff in H as [_ H].
  change (("*/" ++ b)%string) with (String "*" ("/" ++ b)%string) in H. unfold chars in H. cbn [list_ascii_of_string forallb] in H. change (negb (N.eqb (code "*") 42)) with false in H. discriminate H.
Qed.
Lemma no_star_app a b : no_star (a ++ b)%string = (no_star a && no_star b)%bool.
Proof. unfold no_star. rewrite chars_app. apply forallb_app. Qed.
Definition inst_b (ce : string -> option N) (x : string) : bool :=
  (ident_b x && negb (String.eqb x "true")
   || match number x, ce x with Some n, Some k => (N.eqb n k && word_b x)%bool | _, _ => false end)%bool.
Lemma inst_b_ok ce x : inst_b ce x = true -> identifier x /\ x <> "true" \/ exists n, number x = Some n /\ word x /\ ce x = Some n.
Proof.
  intros H. apply Bool.orb_true_iff in H as [H|H].
  - left. apply Bool.andb_true_iff in H as [A B]. split; [exact (ident_b_ok x A)|]. apply String.eqb_neq. apply Bool.negb_true_iff. exact B.
  - right. destruct (number x) as [n|]; [|discriminate H]. destruct (ce x) as [k|]; [|discriminate H]. apply Bool.andb_true_iff in H as [A B]. apply N.eqb_eq in A. subst k.
    exists n. split; [reflexivity|]. split; [exact (word_b_ok x B)|reflexivity].
Qed.
Definition struct_b (t : string) : bool := (String.prefix "struct " t && ident_b (substring 7 (String.length t - 7) t))%bool.
Lemma substring_0 t : forall n, String.length t = n -> substring 0 n t = t.
Proof. induction t as [|c t IH]; intros n <-; [reflexivity|]. cbn [String.length substring]. rewrite IH; reflexivity. Qed.
Lemma struct_b_ok t : struct_b t = true -> exists n, identifier n /\ t = ("struct " ++ n)%string.
Proof.
  intros H. apply Bool.andb_true_iff in H as [A B]. do 7 (destruct t as [|? t]; [discriminate A|]; cbn [String.prefix] in A; match type of A with context [if ?d then _ else _] => destruct d as [<-|]; [|discriminate A] end).
  cbn [String.length substring] in B. replace (S (S (S (S (S (S (S (String.length t))))))) - 7)%nat with (String.length t) in B by lia. rewrite substring_0 in B by reflexivity.
  exists t. split; [exact (ident_b_ok t B)|reflexivity].
Qed.
(* of the definitions *)
Definition ie_b (tc : tcfg) (ce : string -> option N) (i : gie) : bool :=
  (ident_b (name_of i) && word_b (tag_of i) && word_b (func_name i) && match g_inst (gm i) with Some x => inst_b ce x | None => true end
   && match gn i with None => type_b (dtype (tc_gen tc) i) && negb (gc_str (tc_gen tc) && String.prefix "to_str_" (func_name i)) | Some _ => struct_b (dtype (tc_gen tc) i) end)%bool.
Definition ies_b (tc : tcfg) (ce : string -> option N) (ms : list gmsg) : bool :=
  (ident_b (gc_proto (tc_gen tc)) && ident_b (gc_tagp (tc_gen tc)) && negb (String.eqb (gc_tagp (tc_gen tc)) "true") && ident_b (gc_msgt (tc_gen tc))
   && negb (String.prefix "ies_in" (gc_proto (tc_gen tc))) && match tc_enum tc with Some e => short_b e | None => true end
   && forallb (fun m : gmsg => ident_b (fst m)) ms && forallb (ie_b tc ce) (all_ies ms))%bool.
Definition opt_directives (h : option string) : Prop := match h with Some s => directives s | None => True end.
Lemma prefix_app a b : String.prefix a (a ++ b) = true.
Proof. induction a as [|c a IH]; [destruct b; reflexivity|]. cbn [String.append String.prefix]. destruct (ascii_dec c c) as [_|n]; [exact IH|destruct (n eq_refl)]. Qed.
Lemma printable_check tc ce ms : ies_b tc ce ms = true -> comment_safe (tc_file tc) -> opt_directives (tc_hhdr tc) -> opt_directives (tc_chdr tc) ->
  no_star (tc_prefix tc) = true -> (forall n r, tc_spec tc n = Some r -> no_star r = true) -> printable tc ce ms.
Proof.
  intros B HF HH HC HP HS. unfold ies_b in B. do 7 (apply Bool.andb_true_iff in B as [B ?]).
  repeat match goal with H : ident_b _ = true |- _ => apply ident_b_ok in H | H : negb _ = true |- _ => apply Bool.negb_true_iff in H end.
  assert (X : forall i, In i (all_ies ms) -> ie_b tc ce i = true) by (apply forallb_forall; assumption).
  constructor; try assumption.
  - split; [assumption|]. apply String.eqb_neq. assumption.
  - intros h E. rewrite E in HH. exact HH.
  - intros h E. rewrite E in HC. exact HC.
  - intros e E. rewrite E in *. apply short_b_ok. assumption.
  - apply Forall_forall. intros m Hm. apply ident_b_ok. exact (proj1 (forallb_forall _ ms) ltac:(eassumption) m Hm).
  - intros i Hi. specialize (X i Hi). unfold ie_b in X. do 4 (apply Bool.andb_true_iff in X as [X ?]). split; [apply ident_b_ok; assumption|]. split; apply word_b_ok; assumption.
  - intros i x Hi E. specialize (X i Hi). unfold ie_b in X. rewrite E in X. do 4 (apply Bool.andb_true_iff in X as [X ?]). apply inst_b_ok. assumption.
  - intros i Hi E. specialize (X i Hi). unfold ie_b in X. rewrite E in X. apply Bool.andb_true_iff in X as [_ X]. apply Bool.andb_true_iff in X as [X _]. exact (type_b_ok _ X).
  - intros i Hi E. specialize (X i Hi). unfold ie_b in X. apply Bool.andb_true_iff in X as [_ X]. destruct (gn i); [|destruct (E eq_refl)]. exact (struct_b_ok _ X).
  - intros i r Hi E. apply no_star_ok. rewrite no_star_app, HP. exact (HS _ _ E).
  - intros HG i j Hi _ Ei _ E. specialize (X i Hi). unfold ie_b in X. rewrite Ei in X. apply Bool.andb_true_iff in X as [_ X]. apply Bool.andb_true_iff in X as [_ X]. rewrite HG, E, prefix_app in X. discriminate X.
Qed.

(* the union exists *)
Lemma union_there cfg te0 ce ms r : gen_and_compile cfg te0 ce ms = Some r -> exists u, gr_types r (msg_union cfg) = Some u.
Proof.
  intros H. unfold gen_and_compile in H. ob H hs Hh. ob H cs Hc. ob H te Ht. ob H defs Hd. injection H as <-. unfold gen_h in Hh. ob Hh a Ha. injection Hh as <-.
  rewrite cc_h_app in Ht. ob Ht te1 H1. unfold msg_items in Ht. rewrite cc_h_app in Ht. ob Ht te2 H2. cbn [cc_h] in Ht. ob Ht te3 H3. injection Ht as <-. cbn [gr_types].
  unfold cc_hitem in H3. destruct (te2 (msg_union cfg)); [discriminate H3|]. ob H3 u Hu. injection H3 as <-. exists u. apply bindty_same.
Qed.
