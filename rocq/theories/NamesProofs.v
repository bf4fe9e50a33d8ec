(* NamesProofs.v -- the names of message types, IE types, causes etc. (C76) *)
From Coq Require Import String Ascii.
From Verif Require Import Base GtlvModel DecEncModel IesModel TablesModel MsgModel StrModel StrSpec StrProofs NamesModel NamesSpec.
Open Scope string_scope.
Open Scope list_scope.
Open Scope N_scope.

(* ---------------------------------------------------------------- checks *)
Fixpoint eqb_l (a b : list N) : bool :=
  match a, b with [], [] => true | x :: a', y :: b' => (x =? y) && eqb_l a' b' | _, _ => false end.
Lemma eqb_l_refl a : eqb_l a a = true.
Proof. induction a; cbn [eqb_l]; [reflexivity|]. rewrite N.eqb_refl, IHa. reflexivity. Qed.
Fixpoint nodup_by {A} (eqb : A -> A -> bool) (l : list A) : bool :=
  match l with [] => true | x :: r => negb (existsb (eqb x) r) && nodup_by eqb r end.
Lemma nodup_by_ok {A} (eqb : A -> A -> bool) l : (forall a, eqb a a = true) -> nodup_by eqb l = true -> NoDup l.
Proof.
  intros He. induction l as [|a l IH]; cbn [nodup_by]; intros H; [constructor|]. apply andb_prop in H. destruct H as [H1 H2].
  constructor; [|exact (IH H2)]. intros Hin. apply Bool.negb_true_iff in H1.
  assert (existsb (eqb a) l = true) by (apply existsb_exists; exists a; split; [exact Hin|apply He]). congruence.
Qed.
Definition has_text (t : vstrs) (nm : string) : bool := existsb (fun p => String.eqb (fst p) nm) t.
Definition unknown_prefix (s : list N) : bool := eqb_l (firstn 10 s) (str "unknown 0x").
Definition table_ok (p : enum * vstrs) : bool :=
  let '(e, t) := p in
  match vs_array e t with
  | None => false
  | Some a => nodup_by N.eqb (map fst a) && nodup_by eqb_l (map snd a) && forallb (fun s => negb (unknown_prefix s)) (map snd a)
              && nodup_by String.eqb (map fst (enumerators e)) && nodup_by N.eqb (map snd (enumerators e))
              && forallb (fun q => no_name (fst q) || has_text t (fst q)) (enumerators e)
              && forallb (fun q => negb (no_name (fst q))) t
  end.
Lemma tables_ok : forallb table_ok tables = true.
Proof. vm_compute. reflexivity. Qed.

(* ---------------------------------------------------------------- generic *)
Lemma vs_array_in e t a : vs_array e t = Some a -> forall v s, In (v, s) a <-> exists nm s', In (nm, s') t /\ enum_val e nm = Some v /\ s = str s'.
Proof.
  revert a. induction t as [|[nm s] t IH]; cbn [vs_array]; intros a H v x.
  - injection H as <-. split; [intros []|]. intros (nm & s' & [] & _).
  - destruct (enum_val e nm) as [w|] eqn:E; [|discriminate H]. destruct (vs_array e t) as [r|]; [|discriminate H]. injection H as <-.
    specialize (IH r eq_refl v x). split.
    + intros [Hx|Hx]; [injection Hx as <- <-; exists nm, s; split; [left; reflexivity|split; [exact E|reflexivity]]|].
      apply IH in Hx. destruct Hx as (n' & s' & Hin & Hv & Hs). exists n', s'. split; [right; exact Hin|split; assumption].
    + intros (n' & s' & [Hin|Hin] & Hv & ->); [injection Hin as <- <-; left; congruence|]. right. apply IH. exists n', s'. auto.
Qed.
Lemma nodup_in_eq {A B} (l : list (A * B)) a b b' : NoDup (map fst l) -> In (a, b) l -> In (a, b') l -> b = b'.
Proof.
  induction l as [|[x y] l IH]; cbn [map fst]; intros Hn H1 H2; [destruct H1|]. inversion Hn as [|? ? Hx Hl]; subst.
  destruct H1 as [H1|H1]; destruct H2 as [H2|H2].
  - congruence.
  - injection H1 as -> ->. exfalso. apply Hx. apply (in_map fst) in H2. exact H2.
  - injection H2 as -> ->. exfalso. apply Hx. apply (in_map fst) in H1. exact H1.
  - exact (IH Hl H1 H2).
Qed.
Lemma nodup_in_eq_r {A B} (l : list (A * B)) a a' b : NoDup (map snd l) -> In (a, b) l -> In (a', b) l -> a = a'.
Proof.
  induction l as [|[x y] l IH]; cbn [map snd]; intros Hn H1 H2; [destruct H1|]. inversion Hn as [|? ? Hx Hl]; subst.
  destruct H1 as [H1|H1]; destruct H2 as [H2|H2].
  - congruence.
  - injection H1 as -> ->. exfalso. apply Hx. apply (in_map snd) in H2. exact H2.
  - injection H2 as -> ->. exfalso. apply Hx. apply (in_map snd) in H1. exact H1.
  - exact (IH Hl H1 H2).
Qed.
Lemma find_in a v : NoDup (map fst a) -> match get_value_string_or_null a v with Some s => In (v, s) a | None => forall s, ~ In (v, s) a end.
Proof.
  intros _. unfold get_value_string_or_null. destruct (find (fun p : N * list N => fst p =? v) a) as [[w s]|] eqn:E; cbn [option_map snd].
  - apply find_some in E. destruct E as [Hin Ev]. cbn [fst] in Ev. apply N.eqb_eq in Ev. subst w. exact Hin.
  - intros s Hin. pose proof (find_none _ _ E _ Hin) as X. cbn [fst] in X. rewrite N.eqb_refl in X. discriminate X.
Qed.
Lemma get_in a v s : NoDup (map fst a) -> In (v, s) a -> get_value_string a v = s.
Proof.
  intros Hn Hin. unfold get_value_string. pose proof (find_in a v Hn) as H. destruct (get_value_string_or_null a v) as [x|].
  - exact (nodup_in_eq a v x s Hn H Hin).
  - destruct (H s Hin).
Qed.
Lemma get_out a v : (forall s, ~ In (v, s) a) -> get_value_string a v = str "unknown 0x" ++ pf_x v.
Proof.
  intros H. unfold get_value_string, get_value_string_or_null. destruct (find (fun p : N * list N => fst p =? v) a) as [[w s]|] eqn:E; [|reflexivity].
  apply find_some in E. destruct E as [Hin Ev]. cbn [fst] in Ev. apply N.eqb_eq in Ev. subst w. destruct (H s Hin).
Qed.
Lemma pf_x_inj a b : pf_x a = pf_x b -> a = b.
Proof. intros H. rewrite <- (pf_x_value a), <- (pf_x_value b), H. reflexivity. Qed.
Lemma pf_u_inj a b : pf_u a = pf_u b -> a = b.
Proof. intros H. rewrite <- (pf_u_value a), <- (pf_u_value b), H. reflexivity. Qed.
Lemma get_inj a v w : NoDup (map fst a) -> NoDup (map snd a) -> (forall s, In s (map snd a) -> unknown_prefix s = false) ->
  get_value_string a v = get_value_string a w -> v = w.
Proof.
  intros H1 H2 H3 H. unfold get_value_string in H. pose proof (find_in a v H1) as F1. pose proof (find_in a w H1) as F2.
  assert (Hu : forall x, unknown_prefix (str "unknown 0x" ++ pf_x x) = true) by (intros x; reflexivity).
  destruct (get_value_string_or_null a v) as [s|], (get_value_string_or_null a w) as [s'|].
  - subst s'. exact (nodup_in_eq_r a v w s H2 F1 F2).
  - apply (in_map snd) in F1. cbn [snd] in F1. apply H3 in F1. rewrite H, Hu in F1. discriminate F1.
  - apply (in_map snd) in F2. cbn [snd] in F2. apply H3 in F2. rewrite <- H, Hu in F2. discriminate F2.
  - apply app_inv_head in H. apply pf_x_inj, H.
Qed.
Lemma enum_val_in e nm v : NoDup (map fst (enumerators e)) -> (enum_val e nm = Some v <-> In (nm, v) (enumerators e)).
Proof.
  intros Hn. unfold enum_val. destruct (find (fun p : string * N => String.eqb (fst p) nm) (enumerators e)) as [[x w]|] eqn:E; cbn [option_map snd].
  - apply find_some in E. destruct E as [Hin Ev]. cbn [fst] in Ev. apply String.eqb_eq in Ev. subst x.
    split; intros H; [injection H as <-; exact Hin|]. f_equal. exact (nodup_in_eq _ nm w v Hn Hin H).
  - split; [discriminate|]. intros H. pose proof (find_none _ _ E _ H) as X. cbn [fst] in X. rewrite String.eqb_refl in X. discriminate X.
Qed.

Record good_table (e : enum) (t : vstrs) (a : list (N * list N)) : Prop := mkGood {
  gt_arr : vs_array e t = Some a;
  gt_vals : NoDup (map fst a);
  gt_texts : NoDup (map snd a);
  gt_unk : forall s, In s (map snd a) -> unknown_prefix s = false;
  gt_names : NoDup (map fst (enumerators e));
  gt_nums : NoDup (map snd (enumerators e));
  gt_all : forall nm v, In (nm, v) (enumerators e) -> no_name nm = false -> exists s, In (nm, s) t;
  gt_none : forall nm s, In (nm, s) t -> no_name nm = false }.
Lemma good_of e t : In (e, t) tables -> exists a, good_table e t a.
Proof.
  intros Hin. pose proof tables_ok as H. rewrite forallb_forall in H. specialize (H _ Hin). unfold table_ok in H.
  destruct (vs_array e t) as [a|] eqn:E; [|discriminate H]. exists a.
  repeat (apply andb_prop in H; let H' := fresh "G" in destruct H as [H H']).
  constructor; [exact E| | | | | | | ].
  - apply (nodup_by_ok N.eqb); [apply N.eqb_refl|assumption].
  - apply (nodup_by_ok eqb_l); [apply eqb_l_refl|assumption].
  - intros s Hs. rewrite forallb_forall in G3. specialize (G3 s Hs). apply Bool.negb_true_iff in G3. exact G3.
  - apply (nodup_by_ok String.eqb); [apply String.eqb_refl|assumption].
  - apply (nodup_by_ok N.eqb); [apply N.eqb_refl|assumption].
  - intros nm v Hv Hno. rewrite forallb_forall in G0. specialize (G0 _ Hv). cbn [fst] in G0. rewrite Hno in G0. cbn [orb] in G0.
    unfold has_text in G0. apply existsb_exists in G0. destruct G0 as [[x s] [Hx Ex]]. cbn [fst] in Ex. apply String.eqb_eq in Ex. subst x. exists s. exact Hx.
  - intros nm s Hs. rewrite forallb_forall in G. specialize (G _ Hs). cbn [fst] in G. apply Bool.negb_true_iff in G. exact G.
Qed.

Lemma name_inj e t v w : In (e, t) tables -> name_of e t v = name_of e t w -> v = w.
Proof.
  intros Hin H. destruct (good_of e t Hin) as [a G]. unfold name_of in H. rewrite (gt_arr _ _ _ G) in H.
  exact (get_inj a v w (gt_vals _ _ _ G) (gt_texts _ _ _ G) (gt_unk _ _ _ G) H).
Qed.
Lemma name_enumerator e t nm v : In (e, t) tables -> In (nm, v) (enumerators e) -> no_name nm = false ->
  exists s, In (nm, s) t /\ (forall s', In (nm, s') t -> s' = s) /\ name_of e t v = str s.
Proof.
  intros Hin Hv Hno. destruct (good_of e t Hin) as [a G]. destruct (gt_all _ _ _ G nm v Hv Hno) as [s Hs]. exists s. split; [exact Hs|].
  assert (Hn : forall s', In (nm, s') t -> In (v, str s') a).
  { intros s' Hs'. apply (vs_array_in e t a (gt_arr _ _ _ G)). exists nm, s'. split; [exact Hs'|].
    split; [apply (enum_val_in e nm v (gt_names _ _ _ G)); exact Hv|reflexivity]. }
  split; [|unfold name_of; rewrite (gt_arr _ _ _ G); exact (get_in a v _ (gt_vals _ _ _ G) (Hn s Hs))].
  intros s' Hs'. pose proof (nodup_in_eq a v _ _ (gt_vals _ _ _ G) (Hn s' Hs') (Hn s Hs)) as E.
  unfold str in E. assert (Hinj : forall x y, map N_of_ascii x = map N_of_ascii y -> x = y).
  { induction x as [|c x IH]; intros [|d y] Hxy; try discriminate Hxy; [reflexivity|]. cbn [map] in Hxy. injection Hxy as Hc Hxy.
    rewrite <- (ascii_N_embedding c), <- (ascii_N_embedding d), Hc, (IH _ Hxy). reflexivity. }
  apply Hinj in E. rewrite <- (string_of_list_ascii_of_string s'), <- (string_of_list_ascii_of_string s), E. reflexivity.
Qed.
Lemma name_unknown e t v : In (e, t) tables -> (forall nm, In (nm, v) (enumerators e) -> no_name nm = true) ->
  name_of e t v = str "unknown 0x" ++ pf_x v.
Proof.
  intros Hin Hv. destruct (good_of e t Hin) as [a G]. unfold name_of. rewrite (gt_arr _ _ _ G). apply get_out. intros s Hs.
  apply (vs_array_in e t a (gt_arr _ _ _ G)) in Hs. destruct Hs as (nm & s' & Hs & He & _).
  apply (enum_val_in e nm v (gt_names _ _ _ G)) in He. pose proof (gt_none _ _ _ G nm s' Hs) as N1. rewrite (Hv nm He) in N1. discriminate N1.
Qed.
Lemma name_values e t nm nm' v : In (e, t) tables -> In (nm, v) (enumerators e) -> In (nm', v) (enumerators e) -> nm = nm'.
Proof. intros Hin H1 H2. destruct (good_of e t Hin) as [a G]. exact (nodup_in_eq_r _ nm nm' v (gt_nums _ _ _ G) H1 H2). Qed.

Lemma prefixed_ok p t nm s : In (p, t) prefixed -> In (nm, s) t -> nm = (p ++ s)%string.
Proof.
  assert (H : forallb (fun q => forallb (fun r => String.eqb (fst r) (fst q ++ snd r)%string) (snd q)) prefixed = true) by (vm_compute; reflexivity).
  intros Hp Hn. rewrite forallb_forall in H. specialize (H _ Hp). rewrite forallb_forall in H. specialize (H _ Hn). cbn [fst snd] in H.
  apply String.eqb_eq in H. exact H.
Qed.

(* the tables of bit names that StrModel.v uses *)
Lemma bit_tables : vs_array e_up_feature s_up_feature = Some up_feature_strs /\ vs_array e_cp_feature s_cp_feature = Some cp_feature_strs
  /\ vs_array e_apply_action s_apply_action = Some apply_action_strs /\ vs_array e_outer_header_creation s_outer_header_creation = Some ohc_strs.
Proof. split; [vm_compute; reflexivity|split; [vm_compute; reflexivity|split; vm_compute; reflexivity]]. Qed.

(* ---------------------------------------------------------------- names of what is coded *)
Fixpoint ptags (p : pcoding) : list N :=
  match p with PLeaf h _ => [ti_tag (h_ti h)] | PNest h ies => ti_tag (h_ti h) :: flat_map ptags ies end.
Lemma uses_ptags ies tg : uses ies tg -> In tg (flat_map ptags ies).
Proof.
  intros H. induction H as [ies h k Hin|ies h l Hin|ies h l tg Hin Hu IH]; apply in_flat_map.
  - exists (PLeaf h k). split; [exact Hin|left; reflexivity].
  - exists (PNest h l). split; [exact Hin|left; reflexivity].
  - exists (PNest h l). split; [exact Hin|right; exact IH].
Qed.
Definition named (e : enum) (v : N) : bool := existsb (fun q => (snd q =? v) && negb (no_name (fst q))) (enumerators e).
Lemma named_ok e v : named e v = true -> exists nm, In (nm, v) (enumerators e) /\ no_name nm = false.
Proof.
  intros H. unfold named in H. apply existsb_exists in H. destruct H as [[nm w] [Hin H]]. cbn [fst snd] in H. apply andb_prop in H.
  destruct H as [E Hn]. apply N.eqb_eq in E. subst w. exists nm. split; [exact Hin|apply Bool.negb_true_iff in Hn; exact Hn].
Qed.
Definition coded_types : list N := [1; 2; 5; 6; 9; 10; 50; 51; 52; 53; 54; 55].
Lemma coded_in t ies : get_msg_coding t = Some ies -> In t coded_types.
Proof.
  intros H. unfold get_msg_coding in H. unfold coded_types.
  repeat lazymatch type of H with (if ?a =? ?b then _ else _) = _ =>
    destruct (a =? b) eqn:?E; [apply N.eqb_eq in E; subst; cbn; tauto|]; clear E end. discriminate H.
Qed.
Lemma coded_ok : forallb (fun t => named e_message_type t && match get_msg_coding t with Some ies => forallb (named e_iei) (flat_map ptags ies) | None => true end) coded_types = true.
Proof. vm_compute. reflexivity. Qed.
Lemma coded_named t ies : get_msg_coding t = Some ies ->
  (exists nm, In (nm, t) (enumerators e_message_type) /\ no_name nm = false)
  /\ forall tg, uses ies tg -> exists nm, In (nm, tg) (enumerators e_iei) /\ no_name nm = false.
Proof.
  intros H. pose proof coded_ok as C. rewrite forallb_forall in C. specialize (C t (coded_in t ies H)). apply andb_prop in C. destruct C as [C1 C2].
  rewrite H in C2. split; [apply named_ok, C1|]. intros tg Hu. apply named_ok. rewrite forallb_forall in C2. apply C2, uses_ptags, Hu.
Qed.

(* ---------------------------------------------------------------- what the text of a message tells *)
Lemma cut_at (P : N -> Prop) c a b x y : P c -> Forall (fun z => ~ P z) a -> Forall (fun z => ~ P z) b -> a ++ c :: x = b ++ c :: y -> a = b /\ x = y.
Proof.
  intros Hc. revert b. induction a as [|z a IH]; intros [|w b] Ha Hb H; cbn [app] in H.
  - injection H as H. split; [reflexivity|exact H].
  - injection H as -> H. inversion Hb; subst. contradiction.
  - injection H as -> H. inversion Ha; subst. contradiction.
  - injection H as -> H. inversion Ha; inversion Hb; subst. destruct (IH b) as [-> ->]; try assumption. split; reflexivity.
Qed.
Lemma name_chars (P : N -> bool) e t v : In (e, t) tables -> forallb (fun c => P c) (str "unknown 0x0123456789abcdef") = true ->
  forallb (fun q => forallb (fun c => P c) (str (snd q))) t = true -> Forall (fun c => P c = true) (name_of e t v).
Proof.
  intros Hin Hu Ht. destruct (good_of e t Hin) as [a G]. unfold name_of. rewrite (gt_arr _ _ _ G). unfold get_value_string.
  pose proof (find_in a v (gt_vals _ _ _ G)) as F. destruct (get_value_string_or_null a v) as [s|].
  - apply (vs_array_in e t a (gt_arr _ _ _ G)) in F. destruct F as (nm & s' & Hs & _ & ->). rewrite forallb_forall in Ht. specialize (Ht _ Hs).
    cbn [snd] in Ht. rewrite forallb_forall in Ht. apply Forall_forall. exact Ht.
  - rewrite forallb_forall in Hu. apply Forall_app. split.
    + apply Forall_forall. intros c Hc. apply Hu. vm_compute in Hc. vm_compute. tauto.
    + apply (Forall_impl _ (P := fun c => 48 <= c <= 57 \/ 97 <= c <= 102)); [|apply hex_digits]. intros c Hc. apply Hu.
      assert (Hx : In c [48; 49; 50; 51; 52; 53; 54; 55; 56; 57; 97; 98; 99; 100; 101; 102]) by (cbn [In]; lia).
      vm_compute. cbn [In] in Hx. tauto.
Qed.
Lemma digits_not (c : N) n : (c < 48 \/ 57 < c) -> Forall (fun z => ~ z = c) (pf_u n).
Proof. intros Hc. apply (Forall_impl _ (P := fun c => 48 <= c <= 57)); [|apply dec_digits]. intros z Hz ->. lia. Qed.
Lemma hexits_not (c : N) n : (c < 48 \/ 57 < c < 97 \/ 102 < c) -> Forall (fun z => ~ z = c) (pf_x n).
Proof. intros Hc. apply (Forall_impl _ (P := fun c => 48 <= c <= 57 \/ 97 <= c <= 102)); [|apply hex_digits]. intros z Hz ->. lia. Qed.

Lemma hdr_identifies sa_text quote h h' r r' :
  msg_hdr_text (pfcp_texts sa_text quote) h ++ r = msg_hdr_text (pfcp_texts sa_text quote) h' ++ r' -> h = h' /\ r = r'.
Proof.
  unfold msg_hdr_text. destruct h as [ver ty prio seid seq], h' as [ver' ty' prio' seid' seq'].
  cbn [hd_version hd_type hd_prio hd_seid hd_seq tx_msgt pfcp_texts]. rewrite <- !app_assoc. intros H. apply app_inv_head in H.
  change (str " ") with ([32] : list N) in H. cbn [app] in H.
  apply (cut_at (fun z => z = 32)) in H; [|reflexivity|apply digits_not; lia|apply digits_not; lia]. destruct H as [Ev H]. apply pf_u_inj in Ev. subst ver'.
  assert (Hk : str " hdr={seq=" = [32; 104; 100; 114; 61] ++ 123 :: [115; 101; 113; 61]) by reflexivity.
  assert (Hn : forall v, Forall (fun z => ~ z = 123) (name_of e_message_type s_message_type v ++ [32; 104; 100; 114; 61])).
  { intros v. apply Forall_app. split; [|repeat (constructor; [discriminate|]); constructor].
    apply (Forall_impl _ (P := fun c => negb (c =? 123) = true)); [intros c Hc ->; discriminate Hc|].
    apply (name_chars (fun c => negb (c =? 123))); [left; reflexivity|vm_compute; reflexivity|vm_compute; reflexivity]. }
  rewrite Hk in H. rewrite <- !app_assoc in H. rewrite !(app_assoc (name_of _ _ _)) in H. cbn [app] in H.
  apply (cut_at (fun z => z = 123)) in H; [|reflexivity|apply Hn|apply Hn]. destruct H as [Et H].
  apply app_inv_tail in Et. apply name_inj in Et; [|left; reflexivity]. subst ty'.
  apply (app_inv_head [115; 101; 113; 61]) in H.
  (* the sequence number ends at ' ' or '}' *)
  assert (Hs : forall p (s : option N) rest, exists c l, (c = 32 \/ c = 125) /\
     opt_num_text p (fun p => str " prio=" ++ pf_u p) ++ opt_num_text s (fun s => str " SEID=0x" ++ pf_x s) ++ str "} ies={" ++ rest = c :: l).
  { intros [p|] [s|] rest; (eexists; eexists; split; [|reflexivity]); [left|left|left|right]; reflexivity. }
  assert (cut2 : forall Q (a b x y : list N), Forall (fun z => ~ (z = 32 \/ z = 125 \/ Q z)) a -> Forall (fun z => ~ (z = 32 \/ z = 125 \/ Q z)) b ->
     (exists c l, (c = 32 \/ c = 125) /\ x = c :: l) -> (exists c l, (c = 32 \/ c = 125) /\ y = c :: l) -> a ++ x = b ++ y -> a = b /\ x = y).
  { intros Q a. induction a as [|z a IH]; intros [|w b] x y Ha Hb Hx Hy E; cbn [app] in E.
    - split; [reflexivity|exact E].
    - destruct Hx as (c & l & Hc & ->). injection E as -> _. inversion Hb as [|? ? Hw _]; subst. exfalso. apply Hw. tauto.
    - destruct Hy as (c & l & Hc & ->). injection E as -> _. inversion Ha as [|? ? Hw _]; subst. exfalso. apply Hw. tauto.
    - injection E as -> E. inversion Ha; inversion Hb; subst. destruct (IH b x y) as [-> ->]; try assumption. split; reflexivity. }
  assert (Hdig : forall n, Forall (fun z => ~ (z = 32 \/ z = 125 \/ False)) (pf_u n)).
  { intros n. apply (Forall_impl _ (P := fun c => 48 <= c <= 57)); [|apply dec_digits]. intros z Hz. lia. }
  assert (Hhex : forall n, Forall (fun z => ~ (z = 32 \/ z = 125 \/ False)) (pf_x n)).
  { intros n. apply (Forall_impl _ (P := fun c => 48 <= c <= 57 \/ 97 <= c <= 102)); [|apply hex_digits]. intros z Hz. lia. }
  apply (cut2 (fun _ => False)) in H; [|apply Hdig|apply Hdig|apply Hs|apply Hs]. destruct H as [Eq H]. apply pf_u_inj in Eq. subst seq'.
  assert (Hs2 : forall (s : option N) rest, exists c l, (c = 32 \/ c = 125) /\
     opt_num_text s (fun s => str " SEID=0x" ++ pf_x s) ++ str "} ies={" ++ rest = c :: l).
  { intros [s|] rest; (eexists; eexists; split; [|reflexivity]); [left|right]; reflexivity. }
  assert (Hp : prio = prio' /\ opt_num_text seid (fun s => str " SEID=0x" ++ pf_x s) ++ str "} ies={" ++ r
     = opt_num_text seid' (fun s => str " SEID=0x" ++ pf_x s) ++ str "} ies={" ++ r').
  { destruct prio as [p|], prio' as [p'|]; cbn [opt_num_text app] in H |- *.
    - rewrite <- !app_assoc in H. apply app_inv_head in H. apply (cut2 (fun _ => False)) in H; [|apply Hdig|apply Hdig|apply Hs2|apply Hs2].
      destruct H as [Ep H]. apply pf_u_inj in Ep. subst. split; [reflexivity|exact H].
    - exfalso. destruct seid' as [s'|]; discriminate H.
    - exfalso. destruct seid as [s'|]; discriminate H.
    - split; [reflexivity|exact H]. }
  destruct Hp as [<- Hp]. clear H.
  assert (Hq : seid = seid' /\ str "} ies={" ++ r = str "} ies={" ++ r').
  { destruct seid as [s|], seid' as [s'|]; cbn [opt_num_text app] in Hp |- *.
    - rewrite <- !app_assoc in Hp. apply app_inv_head in Hp. assert (Hb : forall rest, exists c l, (c = 32 \/ c = 125) /\ str "} ies={" ++ rest = c :: l).
      { intros rest. eexists. eexists. split; [|reflexivity]. right. reflexivity. }
      apply (cut2 (fun _ => False)) in Hp; [|apply Hhex|apply Hhex|apply Hb|apply Hb]. destruct Hp as [Es Hp]. apply pf_x_inj in Es. subst.
      split; [reflexivity|exact Hp].
    - discriminate Hp.
    - discriminate Hp.
    - split; [reflexivity|exact Hp]. }
  destruct Hq as [<- Hq]. apply app_inv_head in Hq. split; [reflexivity|exact Hq].
Qed.

Lemma numbers_ok p e l : In (p, e, l) numbers -> enumerators e = map (fun x => ((p ++ fst x)%string, snd x)) l.
Proof. intros H. cbn [In numbers] in H. repeat (destruct H as [H|H]; [injection H as <- <- <-; reflexivity|]). destruct H. Qed.
