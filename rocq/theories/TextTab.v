(* TextTab.v -- reading the generated C file gives the declarations of GenModel.v *)
From Coq Require Import String Ascii Decimal DecimalString.
From Verif Require Import Base GtlvModel DecEncModel MemModel GenModel GenSpec GenProofs GenTabProofs CRead TextModel TextSpec TextLex TextProofs.
Local Open Scope string_scope.
Local Open Scope list_scope.

(* ---------------------------------------------------------------- "," *)
Definition cm (s : text) (l : list (list tree)) : Prop :=
  exists ts tr, lx s ts /\ trees ts = Some tr /\ forall rest, split_comma (tr ++ rest) [] = (r <-? split_comma rest [] ;; Some (l ++ r)).
Lemma obind_some {A} (x : option A) : x = obind x (fun y => Some y).
Proof. destruct x; reflexivity. Qed.
Lemma cm_nil : cm [] [].
Proof. exists [], []. split; [exact lx_nil|]. split; [reflexivity|]. intros rest. cbn [app]. exact (obind_some _). Qed.
Lemma cm_app a b x y : cm a x -> cm b y -> cm (a ++ b) (x ++ y).
Proof.
  intros (t1 & r1 & A1 & A2 & A3) (t2 & r2 & B1 & B2 & B3). exists (t1 ++ t2), (r1 ++ r2). split; [exact (lx_app _ _ _ _ A1 B1)|]. split; [exact (trees_app _ _ _ _ A2 B2)|].
  intros rest. rewrite <- app_assoc, A3, B3. destruct (split_comma rest []); [|reflexivity]. cbn [obind]. rewrite app_assoc. reflexivity.
Qed.
Lemma cm_flat {B} (g : B -> text) (h : B -> list (list tree)) l : (forall x, In x l -> cm (g x) (h x)) -> cm (flat_map g l) (flat_map h l).
Proof.
  induction l as [|x l IH]; intros H; [exact cm_nil|]. cbn [flat_map]. apply cm_app; [apply H; left; reflexivity|]. apply IH. intros y Hy. apply H. right. exact Hy.
Qed.
Lemma cm_pf fmt a ts tr l : Forall piece_ok a -> plex PN (ppf (L fmt) a) = Some ts -> trees ts = Some tr ->
  (forall rest, split_comma (tr ++ rest) [] = (r <-? split_comma rest [] ;; Some (l ++ r))) -> cm (printf fmt (map flat1 a)) l.
Proof. intros F H1 H2 H3. exists ts, tr. split; [exact (lx_pf fmt a ts F H1)|]. split; assumption. Qed.

(* ---------------------------------------------------------------- a table entry *)
Definition fld (f : string) (e : list tree) : list tree := Pu Dot :: I f :: Pu Assign :: e.
Definition memb_tree (sub : option string) (m : string) : list tree := match sub with None => [I m] | Some s => [I s; Pu Dot; I m] end.
Definition off_tree (f k n : string) (sub : option string) (m : string) : list tree := [I f; G Par ([I k; I n; Pu Comma] ++ memb_tree sub m)].
(* id: whether the instance is a name, not a number *)
Definition inst_tree (id : bool) (x : option string) : list tree :=
  match x with None => [] | Some s => [Pu Comma; I "true"; Pu Comma; if id then I s else Nm s] end.
Definition kind_parts (x : string + fns) : list (list tree) :=
  match x with
  | inl t => [fld "nested_ies" [I t]]
  | inr f => [fld "dec_func" [I (fn_dec f)]; fld "enc_func" [I (fn_enc f)]] ++ match fn_str f with Some s => [fld "enc_to_str_func" [I s]] | None => [] end
  end.
Definition multi_parts (k n : string) (e : centry) : list (list tree) :=
  match ce_multi e with
  | None => []
  | Some (mx, mand, c) =>
    [fld "memb_array_pitch" (off_tree "OSMO_MEMB_ARRAY_PITCH" k n (ce_sub e) (ce_memb e));
     fld "has_count" [I "true"]; fld "count_max" [Nm (dec_str mx)]; fld "count_mandatory" [Nm (dec_str mand)];
     fld "count_ofs" (off_tree "offsetof" k n (ce_sub e) c)]
  end.
Definition flag_parts (k n : string) (e : centry) : list (list tree) :=
  match ce_flag e with
  | None => []
  | Some p => [fld "has_presence_flag" [I "true"]; fld "presence_flag_ofs" (off_tree "offsetof" k n (ce_sub e) p)]
  end.
Definition entry_parts (id : bool) (k n : string) (e : centry) : list (list tree) :=
  [G Brc (I (ce_tag e) :: inst_tree id (ce_inst e))]
  :: fld "memb_ofs" (off_tree "offsetof" k n (ce_sub e) (ce_memb e)) :: kind_parts (ce_kind e) ++ multi_parts k n e ++ flag_parts k n e.
Definition inst_ok (ce : string -> option N) (id : bool) (x : option string) : Prop :=
  match x with None => True | Some s => if id then s <> "true" else number s = ce s end.
Definition ent (ce : string -> option N) (e : centry) (l : list tree) : Prop :=
  exists id k n, ce_obj e = (k ++ " " ++ n)%string /\ inst_ok ce id (ce_inst e) /\ split_comma l [] = Some (entry_parts id k n e).

Ltac comma_line a := eapply (cm_pf _ a);
  [pieces2|vm_compute; reflexivity|vm_compute; reflexivity|intros rest; cbn [app split_comma rev]; destruct (split_comma rest []); reflexivity].
Lemma w_ok s : word s -> piece_ok (W s).
Proof. intros H. exact H. Qed.
Ltac pieces2 ::= repeat first [apply Forall_nil | apply Forall_cons; [first [apply v_id; assumption | apply dec_piece | apply w_ok; assumption
  | apply t_ok; [discriminate|repeat (apply Forall_cons; [assumption|]); apply Forall_nil]]|]].
Definition sub_text (sub : option string) : text := match sub with None => [] | Some s => printf "%s." [L s] end.
Definition sub_ok (sub : option string) : Prop := match sub with None => True | Some s => identifier s end.

Section Lines.
Variables k n : string.
Variable sub : option string.
Variable m : string.
Hypothesis Hk : identifier k.
Hypothesis Hn : identifier n.
Hypothesis Hs : sub_ok sub.
Hypothesis Hm : identifier m.
Local Notation obj := (L (String.concat " " [k; n])).
Lemma line_ofs : cm (printf "\t  .memb_ofs = offsetof(%s, %s%s),\n" [obj; sub_text sub; L m]) [fld "memb_ofs" (off_tree "offsetof" k n sub m)].
Proof.
  destruct sub as [s|]; cbn [sub_ok] in Hs.
  - assert (E : printf "\t  .memb_ofs = offsetof(%s, %s%s),\n" [obj; sub_text (Some s); L m] = printf "\t  .memb_ofs = offsetof(%s, %s.%s),\n" [obj; L s; L m]).
    { generalize obj. intros o. unfold sub_text. norm. }
    rewrite E. comma_line [T [k; n]; V true s; V true m].
  - assert (E : printf "\t  .memb_ofs = offsetof(%s, %s%s),\n" [obj; sub_text None; L m] = printf "\t  .memb_ofs = offsetof(%s, %s),\n" [obj; L m]).
    { generalize obj. intros o. unfold sub_text. norm. }
    rewrite E. comma_line [T [k; n]; V true m].
Qed.
Lemma line_pitch : cm (printf "\t  .memb_array_pitch = OSMO_MEMB_ARRAY_PITCH(%s, %s%s),\n" [obj; sub_text sub; L m]) [fld "memb_array_pitch" (off_tree "OSMO_MEMB_ARRAY_PITCH" k n sub m)].
Proof.
  destruct sub as [s|]; cbn [sub_ok] in Hs.
  - assert (E : printf "\t  .memb_array_pitch = OSMO_MEMB_ARRAY_PITCH(%s, %s%s),\n" [obj; sub_text (Some s); L m] = printf "\t  .memb_array_pitch = OSMO_MEMB_ARRAY_PITCH(%s, %s.%s),\n" [obj; L s; L m]).
    { generalize obj. intros o. unfold sub_text. norm. }
    rewrite E. comma_line [T [k; n]; V true s; V true m].
  - assert (E : printf "\t  .memb_array_pitch = OSMO_MEMB_ARRAY_PITCH(%s, %s%s),\n" [obj; sub_text None; L m] = printf "\t  .memb_array_pitch = OSMO_MEMB_ARRAY_PITCH(%s, %s),\n" [obj; L m]).
    { generalize obj. intros o. unfold sub_text. norm. }
    rewrite E. comma_line [T [k; n]; V true m].
Qed.
Lemma line_cofs : cm (printf "\t  .count_ofs = offsetof(%s, %s%s_count),\n" [obj; sub_text sub; L m]) [fld "count_ofs" (off_tree "offsetof" k n sub (count_name m))].
Proof.
  destruct sub as [s|]; cbn [sub_ok] in Hs.
  - assert (E : printf "\t  .count_ofs = offsetof(%s, %s%s_count),\n" [obj; sub_text (Some s); L m] = printf "\t  .count_ofs = offsetof(%s, %s.%s_count),\n" [obj; L s; L m]).
    { generalize obj. intros o. unfold sub_text. norm. }
    rewrite E. comma_line [T [k; n]; V true s; V true m].
  - assert (E : printf "\t  .count_ofs = offsetof(%s, %s%s_count),\n" [obj; sub_text None; L m] = printf "\t  .count_ofs = offsetof(%s, %s_count),\n" [obj; L m]).
    { generalize obj. intros o. unfold sub_text. norm. }
    rewrite E. comma_line [T [k; n]; V true m].
Qed.
Lemma line_pofs : cm (printf "\t  .presence_flag_ofs = offsetof(%s, %s%s_present),\n" [obj; sub_text sub; L m]) [fld "presence_flag_ofs" (off_tree "offsetof" k n sub (flag_name m))].
Proof.
  destruct sub as [s|]; cbn [sub_ok] in Hs.
  - assert (E : printf "\t  .presence_flag_ofs = offsetof(%s, %s%s_present),\n" [obj; sub_text (Some s); L m] = printf "\t  .presence_flag_ofs = offsetof(%s, %s.%s_present),\n" [obj; L s; L m]).
    { generalize obj. intros o. unfold sub_text. norm. }
    rewrite E. comma_line [T [k; n]; V true s; V true m].
  - assert (E : printf "\t  .presence_flag_ofs = offsetof(%s, %s%s_present),\n" [obj; sub_text None; L m] = printf "\t  .presence_flag_ofs = offsetof(%s, %s_present),\n" [obj; L m]).
    { generalize obj. intros o. unfold sub_text. norm. }
    rewrite E. comma_line [T [k; n]; V true m].
Qed.
End Lines.
Lemma line_nested t : word t -> cm (printf "\t  .nested_ies = ies_in_%s,\n" [L t]) [fld "nested_ies" [I (ies_in t)]].
Proof. intros H. comma_line [W t]. Qed.
Lemma line_dec p t : identifier p -> word t -> cm (printf "\t  .dec_func = %s_dec_%s,\n" [L p; L t]) [fld "dec_func" [I (p ++ "_dec_" ++ t)]].
Proof. intros H H0. comma_line [V true p; W t]. Qed.
Lemma line_enc p t : identifier p -> word t -> cm (printf "\t  .enc_func = %s_enc_%s,\n" [L p; L t]) [fld "enc_func" [I (p ++ "_enc_" ++ t)]].
Proof. intros H H0. comma_line [V true p; W t]. Qed.
Lemma line_str p t : identifier p -> word t -> cm (printf "\t  .enc_to_str_func = %s_enc_to_str_%s,\n" [L p; L t]) [fld "enc_to_str_func" [I (p ++ "_enc_to_str_" ++ t)]].
Proof. intros H H0. comma_line [V true p; W t]. Qed.
Lemma line_count x : cm (printf "\t  .has_count = true, .count_max = %u,\n" [dec x]) [fld "has_count" [I "true"]; fld "count_max" [Nm (dec_str x)]].
Proof. comma_line [V false (dec_str x)]. Qed.
Lemma line_mand x : cm (printf "\t  .count_mandatory = %u,\n" [dec x]) [fld "count_mandatory" [Nm (dec_str x)]].
Proof. comma_line [V false (dec_str x)]. Qed.
Lemma line_flag : cm (printf "\t  .has_presence_flag = true,\n" []) [fld "has_presence_flag" [I "true"]].
Proof. comma_line (@nil piece). Qed.
(* the tag and instance, up to the fields *)
Definition open_entry (tg : list tok) : list tok := [TO Brc; TO Brc] ++ tg ++ [TC Brc; TP Comma].
Lemma line_tag p t : identifier p -> word t -> lx (printf "\t{ { %s%s" [L p; L t] ++ printf " },\n" []) (open_entry [TId (p ++ t)]).
Proof.
  intros H H0. assert (E : printf "\t{ { %s%s" [L p; L t] ++ printf " },\n" [] = printf "\t{ { %s%s },\n" [L p; L t]) by norm. rewrite E.
  refine (lx_pf "\t{ { %s%s },\n" [V true p; W t] _ _ _); [pieces2|reflexivity].
Qed.
Lemma line_tag_inst p t id x : identifier p -> word t -> piece_ok (V id x) ->
  lx (printf "\t{ { %s%s" [L p; L t] ++ printf ", true, %s" [L x] ++ printf " },\n" [])
     (open_entry [TId (p ++ t); TP Comma; TId "true"; TP Comma; if id then TId x else TNum x]).
Proof.
  intros H H0 Hx. assert (E : printf "\t{ { %s%s" [L p; L t] ++ printf ", true, %s" [L x] ++ printf " },\n" [] = printf "\t{ { %s%s, true, %s },\n" [L p; L t; L x]) by norm. rewrite E.
  refine (lx_pf "\t{ { %s%s, true, %s },\n" [V true p; W t; V id x] _ _ _); [|destruct id; reflexivity]. constructor; [apply v_id; exact H|]. constructor; [exact H0|]. constructor; [exact Hx|constructor].
Qed.
Lemma cm_entry pre body parts tg tgt : lx pre (open_entry tg) -> trees tg = Some tgt -> cm body parts ->
  exists l, cm (pre ++ body ++ printf "\t},\n" []) [[G Brc l]] /\ split_comma l [] = Some ([G Brc tgt] :: parts).
Proof.
  intros P Ht (ts & tr & B1 & B2 & B3). exists ([G Brc tgt; Pu Comma] ++ tr). split.
  - exists ((TO Brc :: ((TO Brc :: tg ++ [TC Brc]) ++ [TP Comma] ++ ts) ++ [TC Brc]) ++ [TP Comma]), ([G Brc ([G Brc tgt] ++ [Pu Comma] ++ tr)] ++ [Pu Comma]).
    split.
    { assert (E : (TO Brc :: ((TO Brc :: tg ++ [TC Brc]) ++ [TP Comma] ++ ts) ++ [TC Brc]) ++ [TP Comma] = open_entry tg ++ ts ++ [TC Brc; TP Comma]).
      { unfold open_entry. repeat first [rewrite <- app_assoc | progress cbn [app]]. reflexivity. }
      rewrite E. apply lx_app; [exact P|]. apply lx_app; [exact B1|]. apply lx_run. reflexivity. }
    split. { apply trees_app; [|reflexivity]. apply trees_group. apply trees_app; [exact (trees_group Brc tg tgt Ht)|]. apply trees_app; [reflexivity|exact B2]. }
    intros rest. cbn [app split_comma rev]. destruct (split_comma rest []); reflexivity.
  - pose proof (B3 []) as Q. rewrite app_nil_r in Q. cbn [app split_comma rev]. rewrite Q. cbn [split_comma obind]. rewrite app_nil_r. reflexivity.
Qed.
Lemma number_digit x v : number x = Some v -> match x with String c _ => digit c = true | EmptyString => False end.
Proof.
  unfold number. destruct x as [|c x]; [discriminate|]. cbn [NilEmpty.uint_of_string]. destruct (NilEmpty.uint_of_string x); intros H; [|discriminate H].
  destruct c as [[|] [|] [|] [|] [|] [|] [|] [|]]; try reflexivity; discriminate H.
Qed.
Lemma upper_word s : word s -> word (upper s).
Proof.
  unfold word, chars. induction s as [|c s IH]; intros H; [constructor|]. inversion H as [|? ? H1 H2]; subst. cbn [upper list_ascii_of_string]. constructor; [|exact (IH H2)].
  clear -H1. destruct c as [[|] [|] [|] [|] [|] [|] [|] [|]]; try reflexivity; discriminate H1.
Qed.
Lemma trunc_word k s : word s -> word (trunc k s).
Proof.
  unfold word, chars, trunc. revert k. induction s as [|c s IH]; intros k H; [destruct k; constructor|]. inversion H as [|? ? H1 H2]; subst. destruct k; [constructor|].
  cbn [substring list_ascii_of_string]. constructor; [exact H1|exact (IH k H2)].
Qed.
Lemma toupper_word s : word s -> word (toupper s).
Proof. intros H. exact (upper_word _ (trunc_word 127 s H)). Qed.

Section Entry.
Variable tc : tcfg.
Variable ce : string -> option N.
Variable ms : list gmsg.
Hypothesis HP : printable tc ce ms.
Local Notation cfg := (tc_gen tc).
Lemma entry_read k n sub i : identifier k -> identifier n -> sub_ok sub -> In i (all_ies ms) ->
  exists l, cm (t_entry tc (L (k ++ " " ++ n)%string) (sub_text sub) i) [[G Brc l]] /\ ent ce (ie_entry cfg (k ++ " " ++ n) sub i) l.
Proof.
  intros Hk Hn Hs Hi. destruct (p_names tc ce ms HP i Hi) as (Nm_ & Nt & Nf). pose proof (p_proto tc ce ms HP) as Hp. pose proof (proj1 (p_tagp tc ce ms HP)) as Htp.
  change (func_name i) with (decenc i) in Nf. change (tag_of i) with (tagname i) in Nt. unfold name_of in Nm_.
  change (k ++ " " ++ n)%string with (String.concat " " [k; n]).
  set (e := ie_entry cfg (String.concat " " [k; n]) sub i). set (o := L (String.concat " " [k; n])). set (nm := g_name (gm i)) in *.
  set (body := printf "\t  .memb_ofs = offsetof(%s, %s%s),\n" [o; sub_text sub; L nm]
    ++ match gn i with
       | Some _ => printf "\t  .nested_ies = ies_in_%s,\n" [L (tagname i)]
       | None =>
         printf "\t  .dec_func = %s_dec_%s,\n" [L (gc_proto cfg); L (decenc i)]
         ++ printf "\t  .enc_func = %s_enc_%s,\n" [L (gc_proto cfg); L (decenc i)]
         ++ if gc_str cfg then printf "\t  .enc_to_str_func = %s_enc_to_str_%s,\n" [L (gc_proto cfg); L (decenc i)] else []
       end
    ++ (if N.eqb (g_multi (gm i)) 0 then []
        else printf "\t  .memb_array_pitch = OSMO_MEMB_ARRAY_PITCH(%s, %s%s),\n" [o; sub_text sub; L nm]
          ++ printf "\t  .has_count = true, .count_max = %u,\n" [dec (g_multi (gm i))]
          ++ printf "\t  .count_mandatory = %u,\n" [dec (g_mmand (gm i))]
          ++ printf "\t  .count_ofs = offsetof(%s, %s%s_count),\n" [o; sub_text sub; L nm])
    ++ (if g_opt (gm i) then printf "\t  .has_presence_flag = true,\n" [] ++ printf "\t  .presence_flag_ofs = offsetof(%s, %s%s_present),\n" [o; sub_text sub; L nm] else [])).
  assert (HB : cm body (fld "memb_ofs" (off_tree "offsetof" k n (ce_sub e) (ce_memb e)) :: kind_parts (ce_kind e) ++ multi_parts k n e ++ flag_parts k n e)).
  { unfold body. apply (cm_app _ _ [_] _ (line_ofs k n sub nm Hk Hn Hs Nm_)). apply cm_app.
    { unfold e, ie_entry. cbn [ce_kind]. destruct (gn i) as [ies|]; [exact (line_nested _ Nt)|]. unfold kind_parts, fns_of. cbn [fn_dec fn_enc fn_str].
      rewrite app_assoc. apply cm_app; [exact (cm_app _ _ [_] [_] (line_dec _ _ Hp Nf) (line_enc _ _ Hp Nf))|].
      destruct (gc_str cfg); [exact (line_str _ _ Hp Nf)|exact cm_nil]. }
    apply cm_app.
    { unfold multi_parts, e, ie_entry. cbn [ce_multi ce_sub ce_memb]. destruct (N.eqb (g_multi (gm i)) 0); [exact cm_nil|].
      apply (cm_app _ _ [_] _ (line_pitch k n sub nm Hk Hn Hs Nm_)). apply (cm_app _ _ [_; _] _ (line_count _)). apply (cm_app _ _ [_] _ (line_mand _)).
      exact (line_cofs k n sub nm Hk Hn Hs Nm_). }
    unfold flag_parts, e, ie_entry. cbn [ce_flag ce_sub]. destruct (g_opt (gm i)); [|exact cm_nil].
    exact (cm_app _ _ [_] [_] line_flag (line_pofs k n sub nm Hk Hn Hs Nm_)). }
  assert (X : forall (a b c d e f g z : text), a ++ b ++ c ++ d ++ e ++ f ++ g ++ z = (a ++ b ++ c) ++ (d ++ e ++ f ++ g) ++ z) by (intros; rewrite <- !app_assoc; reflexivity).
  unfold t_entry. fold nm. rewrite X. fold body. pose proof (toupper_word _ Nt) as Nu.
  assert (PB : forall tg tgt id, inst_ok ce id (ce_inst e) -> trees tg = Some tgt -> tgt = I (ce_tag e) :: inst_tree id (ce_inst e) -> forall pre, lx pre (open_entry tg) ->
    exists l, cm (pre ++ body ++ printf "\t},\n" []) [[G Brc l]] /\ ent ce e l).
  { intros tg tgt id Ho Ht -> pre Hpre. destruct (cm_entry pre body _ tg _ Hpre Ht HB) as (l & L1 & L2). exists l. split; [exact L1|]. exists id, k, n.
    split; [reflexivity|]. split; [exact Ho|exact L2]. }
  unfold e, ie_entry in PB. cbn [ce_inst ce_tag] in PB. fold (ie_entry cfg (String.concat " " [k; n]) sub i) in PB. 
  destruct (g_inst (gm i)) as [x|] eqn:Ei.
  - destruct (p_inst tc ce ms HP i x Hi Ei) as [[Hx Hx2]|(v & Hv & Hw & Hc)].
    + refine (PB _ _ true Hx2 _ eq_refl _ (line_tag_inst _ _ true x Htp Nu (v_id x Hx))). reflexivity.
    + refine (PB _ _ false (eq_trans Hv (eq_sym Hc)) _ eq_refl _ (line_tag_inst _ _ false x Htp Nu _)); [reflexivity|]. pose proof (number_digit x v Hv) as Hd. split; [exact Hw|]. destruct x; [destruct Hd|exact Hd].
  - cbn [app]. refine (PB _ _ true Logic.I _ eq_refl _ (line_tag _ _ Htp Nu)). reflexivity.
Qed.
End Entry.

(* ---------------------------------------------------------------- declarations of the C file *)
Definition cmd (s : text) (l : list (list tree)) : Prop := exists ts tr, lx s ts /\ trees ts = Some tr /\ split_comma tr [] = Some l.
Lemma cmd_app a b x y : cm a x -> cmd b y -> cmd (a ++ b) (x ++ y).
Proof.
  intros (t1 & r1 & A1 & A2 & A3) (t2 & r2 & B1 & B2 & B3). exists (t1 ++ t2), (r1 ++ r2). split; [exact (lx_app _ _ _ _ A1 B1)|]. split; [exact (trees_app _ _ _ _ A2 B2)|].
  rewrite A3, B3. reflexivity.
Qed.
Lemma cmd_cm a x : cm a x -> cmd a x.
Proof. intros H. rewrite <- (app_nil_r a), <- (app_nil_r x). apply (cmd_app _ _ _ _ H). exists [], []. split; [exact lx_nil|split; reflexivity]. Qed.
Lemma cmd_last : cmd (printf "\t{}\n" []) [[G Brc []]].
Proof. exists [TO Brc; TC Brc], [G Brc []]. split; [apply lx_run; reflexivity|split; reflexivity]. Qed.
Lemma rd_arr (star : bool) n pre body l : lx pre (map TId table_type ++ (if star then [TP Star] else []) ++ [TId n; TO Brk; TC Brk; TP Assign; TO Brc]) -> cmd body l ->
  rd read_item (pre ++ body ++ printf "};\n" []) [IArray (table_type ++ if star then ["*"] else []) n l].
Proof.
  intros P (ts & tr & H1 & H2 & H3).
  exists ((map TId table_type ++ (if star then [TP Star] else []) ++ [TId n; TO Brk; TC Brk; TP Assign]) ++ (TO Brc :: ts ++ [TC Brc]) ++ [TP Semi]),
    ((map I table_type ++ (if star then [Pu Star] else []) ++ [I n; G Brk []; Pu Assign]) ++ [G Brc tr] ++ [Pu Semi]),
    [(map I table_type ++ (if star then [Pu Star] else []) ++ [I n; G Brk []; Pu Assign]) ++ [G Brc tr]].
  split. { assert (E : (map TId table_type ++ (if star then [TP Star] else []) ++ [TId n; TO Brk; TC Brk; TP Assign]) ++ (TO Brc :: ts ++ [TC Brc]) ++ [TP Semi]
                   = (map TId table_type ++ (if star then [TP Star] else []) ++ [TId n; TO Brk; TC Brk; TP Assign; TO Brc]) ++ ts ++ [TC Brc; TP Semi]).
           { repeat first [rewrite <- app_assoc | progress cbn [app]]. reflexivity. }
           rewrite E. apply lx_app; [exact P|]. apply lx_app; [exact H1|]. apply lx_run. reflexivity. }
  split. { apply trees_app; [destruct star; reflexivity|]. apply trees_app; [exact (trees_group Brc ts tr H2)|reflexivity]. }
  split; [destruct star; reflexivity|]. cbn [omap]. unfold read_item. rewrite rev_app_distr. destruct star; cbn; rewrite H3; reflexivity.
Qed.

Definition extern_funs (f : fns) : list cfun :=
  [mkFun ["int"] (fn_dec f) [(["void"; "*"], "decoded_struct"); (["void"; "*"], "decode_to"); (["const"; "struct"; "osmo_gtlv_load"; "*"], "gtlv")] None;
   mkFun ["int"] (fn_enc f) [(["struct"; "osmo_gtlv_put"; "*"], "gtlv"); (["const"; "void"; "*"], "decoded_struct"); (["const"; "void"; "*"], "encode_from")] None]
  ++ match fn_str f with
     | Some s => [mkFun ["int"] s [(["char"; "*"], "buf"); (["size_t"], "buflen"); (["const"; "void"; "*"], "encode_from")] None]
     | None => []
     end.
Definition index_tree (p : string * string) : list tree := [G Brk [I (fst p)]; Pu Assign; I (snd p)].
Definition ci (ce : string -> option N) (c : citem) (is : list item) : Prop :=
  match c with
  | CExtern f => is = map IFun (extern_funs f)
  | CTable t es => exists ls, Forall2 (ent ce) es ls /\ is = [IArray table_type t (map (fun l => [G Brc l]) ls ++ [[G Brc []]])]
  | CMsgDefs l => is = [IArray (table_type ++ ["*"]) "msg_defs" (map index_tree l)]
  end.
Definition rdc (ce : string -> option N) (s : text) (cs : list citem) : Prop := exists iss, rd read_item s (concat iss) /\ Forall2 (ci ce) cs iss.
Lemma rdc_nil ce : rdc ce [] [].
Proof. exists []. split; [exact (rd_nil _)|constructor]. Qed.
Lemma rdc_app ce a b x y : rdc ce a x -> rdc ce b y -> rdc ce (a ++ b) (x ++ y).
Proof. intros (i & A1 & A2) (j & B1 & B2). exists (i ++ j). rewrite concat_app. split; [exact (rd_app _ _ _ _ _ A1 B1)|exact (Forall2_app A2 B2)]. Qed.
Lemma rdc_flat {B} ce (g : B -> text) (h : B -> list citem) l : (forall x, In x l -> rdc ce (g x) (h x)) -> rdc ce (flat_map g l) (flat_map h l).
Proof.
  induction l as [|x l IH]; intros H; [exact (rdc_nil ce)|]. cbn [flat_map]. apply rdc_app; [apply H; left; reflexivity|]. apply IH. intros y Hy. apply H. right. exact Hy.
Qed.
Lemma rdc_one ce s c is : rd read_item s is -> ci ce c is -> rdc ce s [c].
Proof. intros A B. exists [is]. cbn [concat]. rewrite app_nil_r. split; [exact A|constructor; [exact B|constructor]]. Qed.

Ltac extern_line a := eapply (rd_pf read_item _ a); [pieces2|vm_compute; reflexivity|vm_compute; reflexivity|vm_compute; reflexivity|vm_compute; reflexivity].
Section CFile.
Variable tc : tcfg.
Variable ce : string -> option N.
Variable ms : list gmsg.
Hypothesis HP : printable tc ce ms.
Local Notation cfg := (tc_gen tc).
Local Notation proto := (gc_proto (tc_gen tc)).
Lemma externs_same i : (forall j, In j (occs i) -> In j (all_ies ms)) -> forall s, same (rdc ce) (t_externs tc i s) (externs cfg i s).
Proof.
  revert i. apply (gie_ind' (fun i => (forall j, In j (occs i) -> In j (all_ies ms)) -> forall s, same (rdc ce) (t_externs tc i s) (externs cfg i s))).
  - intros m d H s. cbn [t_externs externs]. set (i := GIe m d None) in *. assert (HI : In i (all_ies ms)) by exact (H i (occs_self i)).
    destruct (seen (decenc i) None s) as [[b s1]|]; [|exact Logic.I]. cbn [obind fst snd same]. split; [reflexivity|]. destruct b; [exact (rdc_nil ce)|].
    destruct (p_names tc ce ms HP i HI) as (_ & _ & Nf). change (func_name i) with (decenc i) in Nf. pose proof (p_proto tc ce ms HP) as Hp.
    eapply rdc_one; [|reflexivity]. unfold extern_funs, fns_of. cbn [fn_dec fn_enc fn_str]. rewrite map_app, app_assoc. apply rd_app.
    + apply (rd_app _ _ _ [_] [_]); extern_line [V true proto; W (decenc i)].
    + destruct (gc_str cfg); [|exact (rd_nil _)]. extern_line [V true proto; W (decenc i)].
  - intros m d ies IH H s. cbn [t_externs externs]. apply (walk_same (rdc ce) (rdc_nil ce) (rdc_app ce)). intros j Hj.
    exact (proj1 (Forall_forall _ _) IH j Hj (fun k Hk => H k (occs_nested m d ies j k Hj Hk))).
Qed.
Lemma forall2_exists {A B C} (g : A -> B) (P : A -> C -> Prop) (R : B -> C -> Prop) l : (forall x, In x l -> exists c, P x c /\ R (g x) c) ->
  exists cs, Forall2 P l cs /\ Forall2 R (map g l) cs.
Proof.
  induction l as [|x l IH]; intros H; [exists []; split; constructor|]. destruct (H x (or_introl eq_refl)) as (c & C1 & C2).
  destruct (IH (fun y Hy => H y (or_intror Hy))) as (cs & D1 & D2). exists (c :: cs). split; constructor; assumption.
Qed.
Lemma entries_read k n sub ies : identifier k -> identifier n -> sub_ok sub -> (forall i, In i ies -> In i (all_ies ms)) ->
  exists ls, cm (flat_map (t_entry tc (L (k ++ " " ++ n)%string) (sub_text sub)) ies) (map (fun l => [G Brc l]) ls)
    /\ Forall2 (ent ce) (map (ie_entry cfg (k ++ " " ++ n) sub) ies) ls.
Proof.
  intros Hk Hn Hs H. destruct (forall2_exists (ie_entry cfg (k ++ " " ++ n) sub) (fun i l => cm (t_entry tc (L (k ++ " " ++ n)%string) (sub_text sub) i) [[G Brc l]]) (ent ce) ies) as (ls & A & B).
  { intros i Hi. exact (entry_read tc ce ms HP k n sub i Hk Hn Hs (H i Hi)). }
  exists ls. split; [|exact B]. clear B H. induction A as [|i l ies ls A1 A2 IH]; [exact cm_nil|]. cbn [flat_map map]. exact (cm_app _ _ [_] _ A1 IH).
Qed.
Lemma nested_same i : (forall j, In j (occs i) -> In j (all_ies ms)) -> forall s, same (rdc ce) (t_nested tc i s) (nested_tables cfg i s).
Proof.
  revert i. apply (gie_ind' (fun i => (forall j, In j (occs i) -> In j (all_ies ms)) -> forall s, same (rdc ce) (t_nested tc i s) (nested_tables cfg i s))).
  { intros m d _ s. split; [reflexivity|exact (rdc_nil ce)]. }
  intros m d ies IH H s. cbn [t_nested nested_tables]. set (i := GIe m d (Some ies)) in *.
  assert (HI : In i (all_ies ms)) by exact (H i (occs_self i)).
  assert (HN : forall j, In j ies -> In j (all_ies ms)) by (intros j Hj; apply H; exact (occs_nested m d ies j j Hj (occs_self j))).
  pose proof (walk_same (rdc ce) (rdc_nil ce) (rdc_app ce) (t_nested tc) (nested_tables cfg) ies) as W0.
  assert (W' := W0 (fun j Hj => proj1 (Forall_forall _ _) IH j Hj (fun k Hk => H k (occs_nested m d ies j k Hj Hk))) s). clear W0 IH.
  destruct (walk (t_nested tc) ies s) as [[t s1]|], (walk (nested_tables cfg) ies s) as [[x s2]|]; try exact W'; try (destruct W'; fail).
  destruct W' as [<- A]. cbn [obind fst snd]. destruct (seen (tagname i) (Some (g_id d)) s1) as [[b s3]|]; [|exact Logic.I]. cbn [obind fst snd same]. split; [reflexivity|].
  apply rdc_app; [exact A|]. destruct b; [exact (rdc_nil ce)|]. destruct (p_group tc ce ms HP i HI ltac:(discriminate)) as (n & Hn & En).
  destruct (p_names tc ce ms HP i HI) as (_ & Nt & _). change (tag_of i) with (tagname i) in Nt.
  assert (Hk : identifier "struct") by (split; [repeat constructor|reflexivity]).
  destruct (entries_read "struct" n None ies Hk Hn Logic.I HN) as (ls & L1 & L2). change ("struct" ++ " " ++ n)%string with ("struct " ++ n)%string in *. rewrite En.
  eapply rdc_one; [|exists ls; split; [exact L2|reflexivity]].
  rewrite (app_assoc (flat_map _ _)). rewrite <- (app_nil_r table_type). refine (rd_arr false (ies_in (tagname i)) _ _ _ _ (cmd_app _ _ _ _ L1 cmd_last)).
  refine (lx_pf _ [W (tagname i)] _ _ _); [pieces2|reflexivity].
Qed.
Lemma msg_tables_same : rdc ce (flat_map (t_msg_table tc) ms) (map (msg_table_item cfg) ms).
Proof.
  rewrite map_flat. apply rdc_flat. intros m Hm. pose proof (p_proto tc ce ms HP) as Hp. pose proof (proj1 (Forall_forall _ _) (p_msgs tc ce ms HP) m Hm) as Nm_.
  assert (Hk : identifier "union") by (split; [repeat constructor|reflexivity]).
  assert (Hn : identifier (proto ++ "_ies")).
  { destruct Hp as [Hp1 Hp2]. split; [|destruct proto; [destruct Hp2|exact Hp2]]. unfold word, chars in *. fold (L (proto ++ "_ies")). rewrite L_app. apply Forall_app. split; [exact Hp1|repeat constructor]. }
  destruct (entries_read "union" (proto ++ "_ies") (Some (fst m)) (snd m) Hk Hn Nm_) as (ls & L1 & L2).
  { intros i Hi. apply (all_occs ms m i i Hm Hi). apply occs_self. }
  eapply rdc_one; [|exists ls; split; [exact L2|reflexivity]]. unfold t_msg_table.
  assert (Eu : printf "union %s_ies" [L proto] = L ("union" ++ " " ++ proto ++ "_ies")%string).
  { rewrite !L_app. generalize (L proto). intros o. norm. }
  rewrite Eu. change (printf "%s." [L (fst m)]) with (sub_text (Some (fst m))).
  assert (Ez : printf "\t{}\n};\n" [] = printf "\t{}\n" [] ++ printf "};\n" []) by reflexivity. rewrite Ez, (app_assoc (flat_map _ _)). rewrite <- (app_nil_r table_type).
  refine (rd_arr false (ies_in_msg (fst m)) _ _ _ _ (cmd_app _ _ _ _ L1 cmd_last)).
  refine (lx_pf _ [W (fst m)] _ _ _); [|reflexivity]. apply word_id in Nm_. pieces2.
Qed.
Lemma msg_defs_same : rdc ce (printf "\nstatic const struct osmo_gtlv_coding *msg_defs[] = {\n" []
    ++ flat_map (fun m : gmsg => printf "\t[%s%s] = ies_in_msg_%s,\n" [L (gc_msgt cfg); L (toupper (fst m)); L (fst m)]) ms
    ++ printf "};\n" []) [msg_defs_item cfg ms].
Proof.
  eapply rdc_one; [|reflexivity]. refine (rd_arr true "msg_defs" _ _ _ _ _).
  { refine (lx_pf _ [] _ (Forall_nil _) _). reflexivity. }
  apply cmd_cm. rewrite map_map, map_flat. apply cm_flat. intros m Hm. pose proof (word_id _ (proj1 (Forall_forall _ _) (p_msgs tc ce ms HP) m Hm)) as Nm_.
  pose proof (p_msgt tc ce ms HP) as Ht. pose proof (toupper_word _ Nm_) as Nu. comma_line [V true (gc_msgt cfg); W (toupper (fst m)); W (fst m)].
Qed.
End CFile.
Lemma c_read tc ce ms e : printable tc ce ms -> short_words e -> enum_type tc = L (String.concat " " e) ->
  oks (fun tx cs => exists iss, read_file tx = Some (concat iss ++ map IFun (api_funs (gc_proto (tc_gen tc)) e)) /\ Forall2 (ci ce) cs iss) (text_c tc ms) (gen_c (tc_gen tc) ms).
Proof.
  intros HP He Ee. unfold text_c, gen_c. pose proof (p_proto tc ce ms HP) as Hp.
  pose proof (walk_msgs_same (rdc ce) (rdc_nil ce) (rdc_app ce) (t_externs tc) (externs (tc_gen tc)) ms
    (fun m Hm i Hi => externs_same tc ce ms HP i (fun j Hj => all_occs ms m i j Hm Hi Hj)) []) as W1.
  destruct (walk_msgs (t_externs tc) ms []) as [[t s]|], (walk_msgs (externs (tc_gen tc)) ms []) as [[x s2]|]; try exact W1; try (destruct W1; fail).
  destruct W1 as [_ W1]. cbn [obind fst].
  pose proof (walk_msgs_same (rdc ce) (rdc_nil ce) (rdc_app ce) (t_nested tc) (nested_tables (tc_gen tc)) ms
    (fun m Hm i Hi => nested_same tc ce ms HP i (fun j Hj => all_occs ms m i j Hm Hi Hj)) []) as W2.
  destruct (walk_msgs (t_nested tc) ms []) as [[t' s']|], (walk_msgs (nested_tables (tc_gen tc)) ms []) as [[x' s2']|]; try exact W2; try (destruct W2; fail).
  destruct W2 as [_ W2]. cbn [obind fst oks]. rewrite Ee.
  destruct (rdc_app ce _ _ _ _ W1 (rdc_app ce _ _ _ _ W2 (rdc_app ce _ _ _ _ (msg_tables_same tc ce ms HP) (msg_defs_same tc ce ms HP)))) as (iss & R & F).
  exists iss. split; [|exact F]. apply rd_read.
  apply (rd_app _ _ _ [] _). { apply rd_blank. exact (lx_file _ (p_file tc ce ms HP)). }
  do 6 (apply (rd_app _ _ _ [] _); [apply rd_blank; apply lx_run; reflexivity|]).
  apply (rd_app _ _ _ [] _). { destruct (tc_chdr tc) as [h|] eqn:E; [|exact (rd_nil _)]. apply rd_blank. exact (lx_hdr h (p_chdr tc ce ms HP h E)). }
  apply (rd_app _ _ _ [] _). { apply rd_blank. exact lx_nl. }
  match goal with |- rd _ (?a ++ ?b ++ ?c ++ ?d ++ ?e ++ ?f ++ ?g) _ => assert (X : a ++ b ++ c ++ d ++ e ++ f ++ g = (a ++ b ++ c ++ d ++ e ++ f) ++ g) by (rewrite <- !app_assoc; reflexivity) end.
  rewrite X. apply rd_app; [exact R|].
  apply (rd_app _ _ _ [_] _ (rd_get_fun _ e Hp He)). apply (rd_app _ _ _ [_] _ (rd_dec_fun _ e Hp He)).
  apply (rd_app _ _ _ [_] _ (rd_enc_fun _ e Hp He)). exact (rd_str_fun _ e Hp He).
Qed.
