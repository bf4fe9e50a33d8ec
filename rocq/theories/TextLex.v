(* TextLex.v -- tokens and brackets of printed text *)
From Coq Require Import String Ascii Decimal DecimalString DecimalN DecimalPos DecimalFacts.
From Verif Require Import Base GtlvModel DecEncModel MemModel GenModel CRead TextModel TextSpec.
Local Open Scope string_scope.
Local Open Scope list_scope.
Local Notation S_ := string_of_list_ascii.

Definition wd (a : text) : Prop := Forall (fun c => wordc c = true) a.
Definition idt (a : text) : Prop := wd a /\ match a with c :: _ => digit c = false | [] => False end.

Lemma lrun_app st a b : lrun st (a ++ b) = lrun (lrun st a) b.
Proof. revert st. induction a as [|c a IH]; intros st; [reflexivity|exact (IH _)]. Qed.
Lemma lrun_cons st c r : lrun st (c :: r) = lrun (lstep st c) r.
Proof. reflexivity. Qed.
Lemma lrun_word1 w t a r : wd a -> lrun (LWord w, t) (a ++ r) = lrun (LWord (w ++ a), t) r.
Proof.
  revert w. induction a as [|c a IH]; intros w H; [rewrite app_nil_r; reflexivity|]. inversion H; subst. cbn [app lrun lstep fst snd].
  rewrite H2. rewrite (IH _ H3), <- app_assoc. reflexivity.
Qed.
Lemma lrun_word0 t a r : idt a -> lrun (LNone, t) (a ++ r) = lrun (LWord a, t) r.
Proof.
  intros (H & K). destruct a as [|c a]; [destruct K|]. inversion H; subst. cbn [app lrun lstep fst snd]. unfold lstart. rewrite H2.
  rewrite (lrun_word1 _ _ _ _ H3). reflexivity.
Qed.
Lemma word_tok_id a : idt a -> word_tok a = TId (S_ a).
Proof. intros (_ & K). destruct a; [destruct K|]. unfold word_tok. rewrite K. reflexivity. Qed.
Lemma idt_app a b : idt a -> wd b -> idt (a ++ b).
Proof. intros (H & K) B. split; [apply Forall_app; split; assumption|]. destruct a; [destruct K|exact K]. Qed.
Lemma wd_app a b : wd a -> wd b -> wd (a ++ b).
Proof. intros A B. apply Forall_app. split; assumption. Qed.


(* the text reads as these tokens *)
Definition lx (a : text) (ts : list tok) : Prop := forall t, lrun (LNone, t) a = (LNone, rev ts ++ t).
Lemma lx_nil : lx [] [].
Proof. intros t. reflexivity. Qed.
Lemma lx_app a b x y : lx a x -> lx b y -> lx (a ++ b) (x ++ y).
Proof. intros A B t. rewrite lrun_app, A, B, rev_app_distr, <- app_assoc. reflexivity. Qed.
Lemma lx_lex a ts : lx a ts -> lex a = Some ts.
Proof. intros H. unfold lex. rewrite H, app_nil_r, rev_involutive. reflexivity. Qed.

(* ---------------------------------------------------------------- printed lines: constant characters, words and types *)
Inductive piece := K (c : ascii) | V (id : bool) (s : string) | W (s : string) | T (ws : list string).
Definition flat1 (p : piece) : text := match p with K c => [c] | V _ s | W s => L s | T ws => L (String.concat " " ws) end.
Definition piece_ok (p : piece) : Prop :=
  match p with
  | K _ => True
  | V id s => word s /\ match s with String c _ => digit c = negb id | EmptyString => False end
  | W s => word s
  | T ws => ws <> [] /\ Forall identifier ws
  end.
Fixpoint ppf (f : text) (a : list piece) : list piece :=
  match f with
  | [] => []
  | c :: f' =>
    if N.eqb (code c) 92 then match f' with d :: f'' => K (ascii_of_N (if N.eqb (code d) 110 then 10 else 9)) :: ppf f'' a | [] => [] end
    else if N.eqb (code c) 37 then match f', a with d :: f'', x :: a' => x :: ppf f'' a' | _, _ => [] end
    else K c :: ppf f' a
  end.
Lemma ppf_pf : forall n f a, (length f <= n)%nat -> pf f (map flat1 a) = flat_map flat1 (ppf f a).
Proof.
  induction n as [|n IH]; intros f a Hn; (destruct f as [|c f]; [reflexivity|]); cbn [length] in Hn; [lia|].
  cbn [pf ppf]. destruct (N.eqb (code c) 92).
  - destruct f as [|d f]; [reflexivity|]. cbn [length] in Hn. cbn [flat_map flat1 app]. rewrite IH by lia. reflexivity.
  - destruct (N.eqb (code c) 37).
    + destruct f as [|d f]; [reflexivity|]. destruct a as [|x a]; [reflexivity|]. cbn [length] in Hn. cbn [map flat_map]. rewrite IH by lia. reflexivity.
    + cbn [flat_map flat1 app]. rewrite IH by lia. reflexivity.
Qed.

(* between tokens, in a word (read backwards), after ">" *)
Inductive pst := PN | PW (id : bool) (w : list (ascii + string)) | PG.
(* the word, forwards *)
Fixpoint fin (w : list (ascii + string)) (acc : option string) : string :=
  match w with
  | [] => match acc with Some s => s | None => EmptyString end
  | inl c :: w' => fin w' (Some (String c (match acc with Some s => s | None => EmptyString end)))
  | inr a :: w' => fin w' (Some (match acc with Some s => (a ++ s)%string | None => a end))
  end.
Definition ptok (id : bool) (w : list (ascii + string)) : tok := if id then TId (fin w None) else TNum (fin w None).
Definition pstart (c : ascii) : option (list tok * pst) :=
  if wordc c then Some ([], PW (negb (digit c)) [inl c])
  else if space c then Some ([], PN)
  else if N.eqb (code c) 47 then None
  else if N.eqb (code c) 35 then None
  else if N.eqb (code c) 62 then Some ([], PG)
  else match single c with Some k => Some ([k], PN) | None => None end.
Definition pstep (st : pst) (c : ascii) : option (list tok * pst) :=
  match st with
  | PN => pstart c
  | PW id w => if wordc c then Some ([], PW id (inl c :: w)) else x <-? pstart c ;; Some (ptok id w :: fst x, snd x)
  | PG => if N.eqb (code c) 61 then Some ([TP Ge], PN) else None
  end.
Fixpoint cat {A} (a b : list A) : list A := match a with [] => b | x :: a' => x :: cat a' b end.
Fixpoint plex (st : pst) (ps : list piece) : option (list tok) :=
  match ps with
  | [] => match st with PN => Some [] | _ => None end
  | K c :: ps' => x <-? pstep st c ;; r <-? plex (snd x) ps' ;; Some (cat (fst x) r)
  | V id s :: ps' =>
    match st with
    | PN => plex (PW id [inr s]) ps'
    | PW i w => plex (PW i (inr s :: w)) ps'
    | PG => None
    end
  | W s :: ps' => match st with PW i w => plex (PW i (inr s :: w)) ps' | _ => None end
  | T ws :: ps' =>
    match st, ps' with
    | PN, K c :: ps'' => if wordc c then None else x <-? pstart c ;; r <-? plex (snd x) ps'' ;; Some (map TId ws ++ cat (fst x) r)
    | _, _ => None
    end
  end.

Lemma L_app a b : L (a ++ b)%string = L a ++ L b.
Proof. unfold L. induction a as [|c a IH]; [reflexivity|]. cbn [append list_ascii_of_string app]. rewrite IH. reflexivity. Qed.
Lemma S_L s : S_ (L s) = s.
Proof. apply string_of_list_ascii_of_string. Qed.
Lemma sapp_nil s : (s ++ "")%string = s.
Proof. induction s as [|c s IH]; [reflexivity|]. cbn. rewrite IH. reflexivity. Qed.
Lemma sapp_assoc a b c : ((a ++ b) ++ c)%string = (a ++ b ++ c)%string.
Proof. induction a as [|x a IH]; [reflexivity|]. cbn. rewrite IH. reflexivity. Qed.
Lemma fin_some w : forall s, fin w (Some s) = (fin w None ++ s)%string.
Proof.
  induction w as [|[c|a] w IH]; intros s; [reflexivity| |]; cbn [fin].
  - rewrite !IH, sapp_assoc. reflexivity.
  - rewrite !IH, sapp_assoc. reflexivity.
Qed.
Lemma fin_c c w : fin (inl c :: w) None = (fin w None ++ String c "")%string.
Proof. cbn [fin]. apply fin_some. Qed.
Lemma fin_a a w : fin (inr a :: w) None = (fin w None ++ a)%string.
Proof. cbn [fin]. apply fin_some. Qed.
Lemma cat_app {A} (a b : list A) : cat a b = a ++ b.
Proof. induction a as [|x a IH]; [reflexivity|]. cbn. rewrite IH. reflexivity. Qed.

Definition starts (id : bool) (a : text) : Prop := wd a /\ match a with c :: _ => digit c = negb id | [] => False end.
Lemma starts_app id a b : starts id a -> wd b -> starts id (a ++ b).
Proof. intros (H & K0) B. split; [apply Forall_app; split; assumption|]. destruct a; [destruct K0|exact K0]. Qed.
Lemma starts_tok id s : starts id (L s) -> word_tok (L s) = if id then TId s else TNum s.
Proof.
  intros (_ & K0). destruct s as [|c s]; [destruct K0|]. unfold word_tok. cbn [L list_ascii_of_string] in *.
  change (c :: list_ascii_of_string s) with (L (String c s)). rewrite S_L. rewrite K0. destruct id; reflexivity.
Qed.
Definition mode_of (st : pst) : lmode := match st with PN => LNone | PW _ w => LWord (L (fin w None)) | PG => LGt end.
Definition pst_ok (st : pst) : Prop := match st with PW id w => starts id (L (fin w None)) | _ => True end.
Lemma pstart_ok c ts st : pstart c = Some (ts, st) -> forall t, lstart c t = (mode_of st, rev ts ++ t) /\ pst_ok st.
Proof.
  intros H t. unfold pstart, lstart in *. destruct (wordc c) eqn:E1.
  { injection H as <- <-. split; [reflexivity|]. cbn [pst_ok fin]. split; [constructor; [exact E1|constructor]|]. cbn. rewrite Bool.negb_involutive. reflexivity. }
  destruct (space c). { injection H as <- <-. split; reflexivity || exact Logic.I. }
  destruct (N.eqb (code c) 47); [discriminate|]. destruct (N.eqb (code c) 35); [discriminate|].
  destruct (N.eqb (code c) 62). { injection H as <- <-. split; reflexivity || exact Logic.I. }
  destruct (single c); [|discriminate]. injection H as <- <-. split; reflexivity || exact Logic.I.
Qed.
Lemma pstep_ok st c ts st' : pst_ok st -> pstep st c = Some (ts, st') -> forall t, lstep (mode_of st, t) c = (mode_of st', rev ts ++ t) /\ pst_ok st'.
Proof.
  intros O H t. destruct st as [|id w|]; cbn [pstep mode_of lstep fst snd] in *.
  - exact (pstart_ok c ts st' H t).
  - destruct (wordc c) eqn:E.
    + injection H as <- <-. cbn [mode_of rev app]. rewrite fin_c, L_app. split; [reflexivity|]. cbn [pst_ok] in *. rewrite fin_c, L_app.
      apply starts_app; [exact O|]. constructor; [exact E|constructor].
    + destruct (pstart c) as [[k st2]|] eqn:Ep; [|discriminate]. cbn [obind fst snd] in H. injection H as <- <-.
      destruct (pstart_ok c k st2 Ep (word_tok (L (fin w None)) :: t)) as [A B]. split; [|exact B]. rewrite A, (starts_tok id _ O).
      cbn [rev]. rewrite <- app_assoc. unfold ptok. destruct id; reflexivity.
  - destruct (N.eqb (code c) 61); [|discriminate]. injection H as <- <-. split; reflexivity || exact Logic.I.
Qed.
Lemma idt_L s : identifier s -> idt (L s).
Proof. intros (H & K0). split; [exact H|]. destruct s; [destruct K0|exact K0]. Qed.
(* a type, before a character that ends it *)
Lemma lrun_type ws : ws <> [] -> Forall identifier ws -> forall t c r, wordc c = false ->
  lrun (LNone, t) (L (String.concat " " ws) ++ c :: r) = lrun (lstep (LNone, rev (map TId ws) ++ t) c) r.
Proof.
  induction ws as [|w ws IH]; intros N F t c r Hc; [destruct (N eq_refl)|]. inversion F as [|? ? F1 F2]; subst.
  destruct ws as [|w2 ws].
  - cbn [String.concat map rev app]. rewrite (lrun_word0 _ _ _ (idt_L w F1)). cbn [lrun lstep fst snd]. rewrite Hc.
    rewrite (word_tok_id _ (idt_L w F1)), S_L. reflexivity.
  - change (String.concat " " (w :: w2 :: ws)) with (w ++ " " ++ String.concat " " (w2 :: ws))%string. rewrite !L_app, <- !app_assoc.
    rewrite (lrun_word0 _ _ _ (idt_L w F1)). change (L " ") with [" "%char]. cbn [app lrun lstep fst snd].
    change (wordc " ") with false. cbn match. change (lstart " " (word_tok (L w) :: t)) with (LNone, word_tok (L w) :: t).
    rewrite (IH ltac:(discriminate) F2 _ c r Hc). rewrite (word_tok_id _ (idt_L w F1)), S_L. cbn [map rev]. rewrite <- !app_assoc. reflexivity.
Qed.
Lemma plex_ok : forall ps st ts, Forall piece_ok ps -> pst_ok st -> plex st ps = Some ts ->
  forall t, lrun (mode_of st, t) (flat_map flat1 ps) = (LNone, rev ts ++ t).
Proof.
  assert (X : forall n ps st ts, (length ps <= n)%nat -> Forall piece_ok ps -> pst_ok st -> plex st ps = Some ts ->
    forall t, lrun (mode_of st, t) (flat_map flat1 ps) = (LNone, rev ts ++ t)).
  2:{ intros ps st ts. exact (X (length ps) ps st ts (le_n _)). }
  induction n as [|n IH]; intros ps st ts Hn F O H t; (destruct ps as [|p ps]; [destruct st; try discriminate H; injection H as <-; reflexivity|]); cbn [length] in Hn; [lia|].
  inversion F as [|? ? F1 F2]; subst. destruct p as [c|id s|s|ws]; cbn [plex] in H.
  - destruct (pstep st c) as [[k st2]|] eqn:E; [|discriminate]. cbn [obind fst snd] in H. destruct (plex st2 ps) as [r|] eqn:E2; [|discriminate].
    cbn [obind] in H. injection H as <-. cbn [flat_map flat1 app lrun]. destruct (pstep_ok st c k st2 O E t) as [A B]. rewrite A.
    rewrite (IH ps st2 r ltac:(lia) F2 B E2). rewrite cat_app, rev_app_distr, <- app_assoc. reflexivity.
  - cbn [flat_map flat1]. destruct F1 as [Fw Fs]. assert (St : starts id (L s)) by (split; [exact Fw|destruct s; [destruct Fs|exact Fs]]).
    destruct st as [|i w|]; [| |discriminate H].
    + cbn [mode_of]. assert (lrun (LNone, t) (L s ++ flat_map flat1 ps) = lrun (LWord (L s), t) (flat_map flat1 ps)) as ->.
      { destruct s as [|c s]; [destruct Fs|]. change (L (String c s)) with ([c] ++ L s). rewrite <- app_assoc. cbn [app lrun lstep fst snd]. inversion Fw as [|? ? Fc Fr]; subst.
        unfold lstart. rewrite Fc. rewrite (lrun_word1 _ _ _ _ Fr). reflexivity. }
      exact (IH ps (PW id [inr s]) ts ltac:(lia) F2 St H t).
    + cbn [mode_of]. rewrite (lrun_word1 _ _ _ _ (Fw : wd (L s))), <- L_app, <- fin_a.
      refine (IH ps (PW i (inr s :: w)) ts ltac:(lia) F2 _ H t). cbn [pst_ok]. rewrite fin_a, L_app. exact (starts_app _ _ _ O Fw).
  - cbn [flat_map flat1]. destruct st as [|i w|]; [discriminate H| |discriminate H].
    cbn [mode_of]. rewrite (lrun_word1 _ _ _ _ (F1 : wd (L s))), <- L_app, <- fin_a.
    refine (IH ps (PW i (inr s :: w)) ts ltac:(lia) F2 _ H t). cbn [pst_ok]. rewrite fin_a, L_app. exact (starts_app _ _ _ O F1).
  - destruct st as [| |]; try discriminate H. destruct ps as [|[c|?|?|?] ps]; try discriminate H.
    destruct (wordc c) eqn:Ec; [discriminate|]. destruct (pstart c) as [[k st2]|] eqn:Ep; [|discriminate]. cbn [obind fst snd] in H.
    destruct (plex st2 ps) as [r|] eqn:E2; [|discriminate]. cbn [obind] in H. injection H as <-. destruct F1 as [Fn Fi].
    cbn [flat_map flat1 mode_of]. cbn [app]. rewrite (lrun_type ws Fn Fi t c _ Ec). cbn [lstep fst snd].
    destruct (pstart_ok c k st2 Ep (rev (map TId ws) ++ t)) as [A B]. rewrite A. cbn [length] in Hn. inversion F2 as [|? ? _ F3]; subst.
    rewrite (IH ps st2 r ltac:(lia) F3 B E2). rewrite cat_app, !rev_app_distr, <- !app_assoc. reflexivity.
Qed.
(* a printed line *)
Lemma lx_pf f a ts : Forall piece_ok a -> plex PN (ppf (L f) a) = Some ts -> lx (printf f (map flat1 a)) ts.
Proof.
  intros F H t. unfold printf. rewrite (ppf_pf _ _ _ (le_n _)). refine (plex_ok _ PN ts _ Logic.I H t). clear H. revert F.
  assert (X : forall n g b, (length g <= n)%nat -> Forall piece_ok b -> Forall piece_ok (ppf g b)).
  { induction n as [|n IH]; intros g b Hn F; (destruct g as [|c g]; [constructor|]); cbn [length] in Hn; [lia|]. cbn [ppf].
    destruct (N.eqb (code c) 92). { destruct g as [|d g]; [constructor|]. cbn [length] in Hn. constructor; [exact Logic.I|]. apply IH; [lia|exact F]. }
    destruct (N.eqb (code c) 37). { destruct g as [|d g]; [constructor|]. destruct b as [|x b]; [constructor|]. cbn [length] in Hn. inversion F; subst. constructor; [assumption|]. apply IH; [lia|assumption]. }
    constructor; [exact Logic.I|]. apply IH; [lia|exact F]. }
  intros F. exact (X _ _ _ (le_n _) F).
Qed.
Lemma v_id s : identifier s -> piece_ok (V true s).
Proof. intros (H & K0). split; [exact H|]. destruct s; [destruct K0|exact K0]. Qed.

(* ---------------------------------------------------------------- comments and directives *)
Lemma comment_run m t s : (m = LCom \/ m = LStar) -> comment_safe s -> (m = LStar -> match s with String c _ => code c <> 47%N | EmptyString => True end) ->
  exists m', lrun (m, t) (L s) = (m', t) /\ (m' = LCom \/ m' = LStar).
Proof.
  revert m. induction s as [|c s IH]; intros m M C H; [exists m; split; [reflexivity|exact M]|].
  assert (C' : comment_safe s). { intros a b E. apply (C (String c a) b). cbn. rewrite E. reflexivity. }
  change (L (String c s)) with (c :: L s). cbn [lrun]. destruct M as [->| ->]; cbn [lstep fst snd].
  - destruct (N.eqb (code c) 42) eqn:E; [|exact (IH LCom (or_introl eq_refl) C' ltac:(discriminate))].
    refine (IH LStar (or_intror eq_refl) C' _). intros _. destruct s as [|d s]; [exact Logic.I|]. intros Ed.
    apply (C "" s). cbn. apply N.eqb_eq in E. f_equal; [|f_equal].
    + rewrite <- (ascii_N_embedding c). unfold code in E. rewrite E. reflexivity.
    + rewrite <- (ascii_N_embedding d). unfold code in Ed. rewrite Ed. reflexivity.
  - specialize (H eq_refl). cbn in H. destruct (N.eqb (code c) 47) eqn:E1; [apply N.eqb_eq in E1; destruct (H E1)|].
    destruct (N.eqb (code c) 42) eqn:E; [|exact (IH LCom (or_introl eq_refl) C' ltac:(discriminate))].
    refine (IH LStar (or_intror eq_refl) C' _). intros _. destruct s as [|d s]; [exact Logic.I|]. intros Ed.
    apply (C "" s). cbn. apply N.eqb_eq in E. f_equal; [|f_equal].
    + rewrite <- (ascii_N_embedding c). unfold code in E. rewrite E. reflexivity.
    + rewrite <- (ascii_N_embedding d). unfold code in Ed. rewrite Ed. reflexivity.
Qed.

Lemma lstep_acc m t c : lstep (m, t) c = (fst (lstep (m, []) c), snd (lstep (m, []) c) ++ t).
Proof.
  assert (A : forall k, lstart c (k ++ t) = (fst (lstart c k), snd (lstart c k) ++ t)).
  { intros k. unfold lstart. repeat match goal with |- context [if ?b then _ else _] => destruct b; try reflexivity end. destruct (single c); reflexivity. }
  unfold lstep. cbn [fst snd]. destruct m; try exact (A []); repeat match goal with |- context [if ?b then _ else _] => destruct b; try reflexivity end; try reflexivity.
  exact (A [word_tok w]).
Qed.
Lemma lrun_acc s : forall m t, lrun (m, t) s = (fst (lrun (m, []) s), snd (lrun (m, []) s) ++ t).
Proof.
  induction s as [|c s IH]; intros m t; [reflexivity|]. cbn [lrun]. rewrite (lstep_acc m t c). destruct (lstep (m, []) c) as [m2 k]. cbn [fst snd].
  rewrite (IH m2 (k ++ t)), (IH m2 k). cbn [fst snd]. rewrite <- app_assoc. reflexivity.
Qed.
Lemma lx_run s ts : lrun (LNone, []) s = (LNone, rev ts) -> lx s ts.
Proof. intros H t. rewrite lrun_acc, H. reflexivity. Qed.
Lemma lx_directives h : directives h -> lx (L h ++ [ascii_of_N 10]) [].
Proof.
  intros H. apply lx_run. unfold directives, lex, chars in H. fold (L h) in H. destruct (lrun (LNone, []) (L h ++ [ascii_of_N 10])) as [m t].
  destruct m; try discriminate H. injection H as H. f_equal. rewrite <- (rev_involutive t), H. reflexivity.
Qed.
(* a comment: pre opens it, post closes it *)
Lemma lx_comment pre s post : lrun (LNone, []) (L pre) = (LCom, []) -> comment_safe s ->
  (lrun (LCom, []) post = (LNone, [])) -> (lrun (LStar, []) post = (LNone, [])) -> lx (L pre ++ L s ++ post) [].
Proof.
  intros A C B1 B2. apply lx_run. rewrite lrun_app, A, lrun_app. destruct (comment_run LCom [] s (or_introl eq_refl) C ltac:(discriminate)) as (m' & E & [->| ->]); rewrite E; assumption.
Qed.
Lemma lx_file s : comment_safe s -> lx (printf "/* THIS FILE IS GENERATED FROM %s */\n" [L s]) [].
Proof. intros C. exact (lx_comment "/* THIS FILE IS GENERATED FROM " s (L " */" ++ [ascii_of_N 10]) eq_refl C eq_refl eq_refl). Qed.
Lemma lx_spec a b : comment_safe (a ++ b)%string -> lx (printf "/* %s%s */\n" [L a; L b]) [].
Proof.
  intros C. change (printf "/* %s%s */\n" [L a; L b]) with (L "/* " ++ L a ++ (L b ++ (L " */" ++ [ascii_of_N 10]))).
  rewrite (app_assoc (L a)), <- L_app. exact (lx_comment "/* " _ (L " */" ++ [ascii_of_N 10]) eq_refl C eq_refl eq_refl).
Qed.
Lemma lx_hdr h : directives h -> lx (printf "\n%s\n" [L h]) [].
Proof. intros C. change (printf "\n%s\n" [L h]) with ([ascii_of_N 10] ++ (L h ++ [ascii_of_N 10])). apply (lx_app _ _ [] []); [intros t; reflexivity|exact (lx_directives h C)]. Qed.

(* ---------------------------------------------------------------- brackets *)
Definition lift (b : list tree) (bs : list (brk * list tree)) (st : tstate) : tstate :=
  match rev (snd st) with
  | [] => (fst st ++ b, bs)
  | (k, up) :: r => (fst st, rev r ++ (k, up ++ b) :: bs)
  end.
Lemma lift_top b bs cur : lift b bs (cur, []) = (cur ++ b, bs).
Proof. reflexivity. Qed.
Lemma lift_last b bs cur stk k up : lift b bs (cur, stk ++ [(k, up)]) = (cur, stk ++ (k, up ++ b) :: bs).
Proof. unfold lift. cbn [snd]. rewrite rev_app_distr. cbn. rewrite rev_involutive. reflexivity. Qed.
Lemma tstep_lift b bs st k st' : tstep st k = Some st' -> tstep (lift b bs st) k = Some (lift b bs st').
Proof.
  destruct st as [cur stk]. destruct stk as [|x stk] using rev_ind; [|clear IHstk; destruct x as [kx ux]].
  - rewrite lift_top. destruct k; cbn [tstep]; intros H; try (injection H as <-; reflexivity); try discriminate H.
  - rewrite lift_last. destruct k as [s|s|p|o|cl]; cbn [tstep]; intros H.
    1-3: injection H as <-; rewrite lift_last; reflexivity.
    { injection H as <-. exact (eq_sym (f_equal Some (lift_last b bs [] ((o, cur) :: stk) kx ux))). }
    destruct stk as [|[b' up] stk].
    + cbn [app] in *. destruct (brk_eqb cl kx); [|discriminate]. injection H as <-. rewrite lift_top. reflexivity.
    + cbn [app] in *. destruct (brk_eqb cl b'); [|discriminate]. injection H as <-. rewrite lift_last. reflexivity.
Qed.
Lemma trun_lift b bs l : forall st st', trun st l = Some st' -> trun (lift b bs st) l = Some (lift b bs st').
Proof.
  induction l as [|k l IH]; intros st st' H; [injection H as <-; reflexivity|]. cbn [trun] in *. destruct (tstep st k) as [s|] eqn:E; [|discriminate].
  cbn [obind] in H. rewrite (tstep_lift b bs _ _ _ E). exact (IH _ _ H).
Qed.
Lemma trun_app l1 : forall st l2, trun st (l1 ++ l2) = obind (trun st l1) (fun s => trun s l2).
Proof. induction l1 as [|k l1 IH]; intros st l2; [reflexivity|]. cbn [app trun]. destruct (tstep st k); [exact (IH _ _)|reflexivity]. Qed.
Lemma trees_run l tr : trees l = Some tr -> forall cur stk, trun (cur, stk) l = Some (rev tr ++ cur, stk).
Proof.
  unfold trees. intros H cur stk. destruct (trun ([], []) l) as [[c s]|] eqn:E; [|discriminate]. destruct s; [|discriminate]. injection H as <-.
  pose proof (trun_lift cur stk l _ _ E) as X. rewrite !lift_top in X. rewrite rev_involutive. exact X.
Qed.
Lemma run_trees l tr : trun ([], []) l = Some (rev tr, []) -> trees l = Some tr.
Proof. intros H. unfold trees. rewrite H, rev_involutive. reflexivity. Qed.
Lemma trees_app a b x y : trees a = Some x -> trees b = Some y -> trees (a ++ b) = Some (x ++ y).
Proof.
  intros A B. apply run_trees. rewrite trun_app, (trees_run a x A). cbn [obind]. rewrite (trees_run b y B), app_nil_r, rev_app_distr. reflexivity.
Qed.
Lemma trees_group b l tr : trees l = Some tr -> trees (TO b :: l ++ [TC b]) = Some [G b tr].
Proof.
  intros H. apply run_trees. cbn [trun tstep obind]. rewrite trun_app, (trees_run l tr H). cbn [obind trun tstep]. rewrite app_nil_r, rev_involutive.
  destruct b; reflexivity.
Qed.
Lemma trees_ids ws : trees (map TId ws) = Some (map I ws).
Proof.
  induction ws as [|w ws IH]; [reflexivity|]. change (map TId (w :: ws)) with ([TId w] ++ map TId ws). exact (trees_app [TId w] _ [I w] _ eq_refl IH).
Qed.
Lemma trees_cons k t l tr : trees [k] = Some [t] -> trees l = Some tr -> trees (k :: l) = Some (t :: tr).
Proof. exact (trees_app [k] l [t] tr). Qed.

(* ---------------------------------------------------------------- ";" and "," *)
Lemma split_semi_app a : forall cur b x, split_semi a cur = Some x -> split_semi (a ++ b) cur = (y <-? split_semi b [] ;; Some (x ++ y)).
Proof.
  induction a as [|t a IH]; intros cur b x H.
  - destruct cur; [|discriminate H]. injection H as <-. cbn [app]. destruct (split_semi b []); reflexivity.
  - cbn [app split_semi] in *.
    assert (D : forall (cu : list tree) (z : list tree), (r <-? split_semi a [] ;; Some (z :: r)) = Some x ->
      (r <-? split_semi (a ++ b) [] ;; Some (z :: r)) = (y <-? split_semi b [] ;; Some (x ++ y))).
    { intros cu z E. destruct (split_semi a []) as [r|] eqn:E2; [|discriminate]. cbn [obind] in E. injection E as <-. rewrite (IH [] b r E2).
      destruct (split_semi b []); reflexivity. }
    destruct t as [s|s|p|k l]; try exact (IH _ b x H).
    + destruct p; try exact (IH _ b x H). exact (D cur _ H).
    + destruct k; try exact (IH _ b x H). destruct cur as [|[s|s|p|k2 l2] cur]; try exact (IH _ b x H). destruct k2; try exact (IH _ b x H). exact (D cur _ H).
Qed.
Lemma omap_app {A B} (f : A -> option B) a : forall b x y, omap f a = Some x -> omap f b = Some y -> omap f (a ++ b) = Some (x ++ y).
Proof.
  induction a as [|t a IH]; intros b x y H K0; [injection H as <-; exact K0|]. cbn [app omap] in *. destruct (f t); [|discriminate]. cbn [obind] in *.
  destruct (omap f a) as [r|] eqn:E; [|discriminate]. cbn [obind] in H. injection H as <-. rewrite (IH b r y eq_refl K0). reflexivity.
Qed.

(* the text is a sequence of declarations that f reads as l *)
Definition rd {A} (f : list tree -> option A) (s : text) (l : list A) : Prop :=
  exists ts tr ch, lx s ts /\ trees ts = Some tr /\ split_semi tr [] = Some ch /\ omap f ch = Some l.
Lemma rd_app {A} (f : list tree -> option A) a b x y : rd f a x -> rd f b y -> rd f (a ++ b) (x ++ y).
Proof.
  intros (t1 & r1 & c1 & A1 & A2 & A3 & A4) (t2 & r2 & c2 & B1 & B2 & B3 & B4). exists (t1 ++ t2), (r1 ++ r2), (c1 ++ c2).
  split; [exact (lx_app _ _ _ _ A1 B1)|]. split; [exact (trees_app _ _ _ _ A2 B2)|]. split; [|exact (omap_app f _ _ _ _ A4 B4)].
  rewrite (split_semi_app _ _ _ _ A3), B3. reflexivity.
Qed.
Lemma rd_blank {A} (f : list tree -> option A) s : lx s [] -> rd f s [].
Proof. intros H. exists [], [], []. repeat split; [exact H]. Qed.
Lemma rd_nil {A} (f : list tree -> option A) : rd f [] [].
Proof. exact (rd_blank f [] lx_nil). Qed.
Lemma rd_flat {A B} (f : list tree -> option A) (g : B -> text) (h : B -> list A) l : (forall x, In x l -> rd f (g x) (h x)) -> rd f (flat_map g l) (flat_map h l).
Proof.
  induction l as [|x l IH]; intros H; [exact (rd_nil f)|]. cbn [flat_map]. apply rd_app; [apply H; left; reflexivity|]. apply IH. intros y Hy. apply H. right. exact Hy.
Qed.
Lemma rd_pf {A} (f : list tree -> option A) fmt a ts tr ch l : Forall piece_ok a -> plex PN (ppf (L fmt) a) = Some ts -> trees ts = Some tr ->
  split_semi tr [] = Some ch -> omap f ch = Some l -> rd f (printf fmt (map flat1 a)) l.
Proof. intros F H1 H2 H3 H4. exists ts, tr, ch. split; [exact (lx_pf fmt a ts F H1)|]. repeat split; assumption. Qed.
Lemma rd_read s l : rd read_item s l -> read_file s = Some l.
Proof. intros (ts & tr & ch & H1 & H2 & H3 & H4). unfold read_file. rewrite (lx_lex s ts H1). cbn [obind]. rewrite H2. cbn [obind]. rewrite H3. exact H4. Qed.
