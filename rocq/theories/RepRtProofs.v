(* RepRtProofs.v -- C86: encoding and decoding with tables that repeat tags *)
From Verif Require Import Base BaseProofs GtlvModel GtlvSpec GtlvProofs DecEncModel DecEncSpec DecEncProofs DecOrdProofs DecCharProofs RtProofs OrdMandProofs OrdCharProofs EncShapeProofs WfProofs RepSpec RepProofs RepUnordProofs.

Section RR.
Context {V : Type}.
Implicit Types (slots : list (slot V)) (cd : coding V) (c : cfg).

Lemma all3_len1 {A B C} (R : A -> B -> C -> Prop) la lb lc : All3 R la lb lc -> length lb = length la.
Proof. intros H. induction H; cbn; [reflexivity|]. lia. Qed.

(* the IEs of members of another tag, or of unused members *)
Lemma unused_items Tail c o (d : coding V) ies slots itss : All3 (part Tail c o) ies slots itss -> unused d ies slots ->
  Forall (fun it : item => other_tag d (fst it)) (concat itss).
Proof.
  intros H. induction H as [|d' s its ies slots itss (Hc & Ht & Hdec) H IH]; intros Hu; cbn [concat]; [constructor|].
  inversion Hu as [|? ? ? ? U1 U2]; subst. apply Forall_app. split; [|exact (IH U2)].
  rewrite Forall_forall in *. intros it Hit. specialize (Ht it Hit). unfold other_tag. destruct (ti_match (h_ti (head d)) (fst it)) eqn:E; [|reflexivity].
  rewrite ti_match_sym in Ht. rewrite (U1 (ti_match_trans _ _ _ E Ht)) in Hdec. inversion Hdec; subst. destruct Hit.
Qed.
(* the first IE belongs to the first used member *)
Lemma next_used_item Tail c o ies slots itss : All3 (part Tail c o) ies slots itss ->
  match concat itss with
  | [] => next_used ies slots = None
  | it :: _ => exists d, next_used ies slots = Some d /\ has_tag d (fst it)
  end.
Proof.
  intros H. induction H as [|d' s its ies slots itss (Hc & Ht & Hdec) H IH]; cbn [concat next_used]; [reflexivity|].
  destruct its as [|it its]; inversion Hdec; subst; cbn [app nonempty]; [exact IH|]. exists d'. split; [reflexivity|]. inversion Ht; assumption.
Qed.

(* ---------------------------------------------------------------- unordered *)
Lemma without_all (d : coding V) its X : Forall (fun it : item => has_tag d (fst it)) its -> without d (length its) (its ++ X) = X.
Proof.
  induction 1 as [|it its Hit H IH]; [destruct X; reflexivity|]. cbn [length app without]. unfold has_tag in Hit. rewrite Hit. exact IH.
Qed.
Lemma without_none (d : coding V) X : Forall (fun it : item => other_tag d (fst it)) X -> forall n, without d n X = X.
Proof.
  induction 1 as [|it X Hit H IH]; intros n; destruct n; try reflexivity. cbn [without]. unfold other_tag in Hit. rewrite Hit, IH. reflexivity.
Qed.
Lemma without_more (d : coding V) its X : Forall (fun it : item => has_tag d (fst it)) its -> Forall (fun it : item => other_tag d (fst it)) X ->
  forall n, (length its <= n)%nat -> without d n (its ++ X) = X.
Proof.
  intros H HX. induction H as [|it its Hit H IH]; intros n Hn; [apply without_none, HX|]. destruct n as [|n]; [cbn in Hn; lia|].
  cbn [app without]. unfold has_tag in Hit. rewrite Hit. apply IH. cbn in Hn. lia.
Qed.

Lemma unord_tells (Tail : list N -> Prop) c rest all : Tail rest -> forall ies slots itss, All3 (part Tail c false) ies slots itss -> struct_tells false ies slots ->
  fills_unordered c rest all ies (concat itss) slots.
Proof.
  intros Hr ies slots itss H. induction H as [|d s its ies slots itss (Hc & Ht & Hdec) H IH]; intros Hp; cbn [concat]; [constructor; constructor|].
  cbn [struct_tells] in Hp. destruct Hp as [Hp1 Hp2]. specialize (IH Hp2). apply count_ok_cap in Hc. destruct Hc as [Hc1 Hc2].
  pose proof (Forall2_length _ _ _ Hdec) as Hlen. fold (@has_tag V d) in Ht.
  assert (Hits : items_for d its = its) by (apply items_for_all; exact Ht).
  assert (Hdec' : Forall2 (gives c false rest d) its s) by (eapply Forall2_impl; [|exact Hdec]; cbn; intros it v Hv; apply Hv, Hr).
  assert (Hcap : cap_of (head d) <= most d) by (unfold cap_of, most; destruct (h_multi (head d)) as [[mx mand]|]; [destruct (h_pres (head d)); lia|lia]).
  assert (FAP : forall a b, items_for d (a ++ b) = items_for d a ++ items_for d b) by (intros; apply filter_app).
  apply FU_entry; [exact Hc2| |].
  - unfold first_of. rewrite FAP, Hits. destruct (N.ltb_spec (lenN s) (most d)) as [L|L].
    + destruct (Hp1 L) as [U|(C & _)]; [|discriminate]. pose proof (unused_items _ _ _ _ _ _ _ H U) as Hn.
      assert (E : items_for d (concat itss) = []) by (apply items_for_none; exact Hn). rewrite E, app_nil_r. rewrite firstn_all2; [exact Hdec'|]. unfold lenN, item in *. lia.
    + replace (N.to_nat (cap_of (head d))) with (length its) by (unfold lenN, item in *; lia). rewrite firstn_app, Nat.sub_diag, firstn_all. cbn [firstn]. rewrite app_nil_r. exact Hdec'.
  - destruct (N.ltb_spec (lenN s) (most d)) as [L|L].
    + destruct (Hp1 L) as [U|(C & _)]; [|discriminate]. pose proof (unused_items _ _ _ _ _ _ _ H U) as Hn. rewrite without_more; [exact IH|exact Ht|exact Hn|]. unfold lenN, item in *. lia.
    + replace (N.to_nat (cap_of (head d))) with (length its) by (unfold lenN, item in *; lia). rewrite without_all; [exact IH|exact Ht].
Qed.

(* ---------------------------------------------------------------- in table order *)
Lemma first_used Tail c ies slots itss it items : All3 (part Tail c true) ies slots itss -> struct_tells true ies slots -> concat itss = it :: items -> maxes_pos ies ->
  exists ies1 d' ies2 sl2 itss2, ies = ies1 ++ d' :: ies2 /\ slots = map (fun _ => []) ies1 ++ sl2 /\ Forall (fun d1 => other_tag d1 (fst it)) ies1 /\ has_tag d' (fst it) /\
    All3 (part Tail c true) (d' :: ies2) sl2 itss2 /\ struct_tells true (d' :: ies2) sl2 /\ concat itss2 = it :: items.
Proof.
  intros H. induction H as [|d s its ies slots itss P H IH]; intros Hp E Hm; cbn [concat] in E; [discriminate|].
  destruct its as [|x its].
  - cbn [app] in E. pose proof Hp as [Hp1 Hp2]. inversion Hm as [|? ? M1 M2]; subst. destruct (IH Hp2 E M2) as (ies1 & d' & ies2 & sl2 & itss2 & -> & -> & A & B & C & D & F).
    destruct P as (Hc & Ht & Hdec). inversion Hdec; subst. exists (d :: ies1), d', ies2, sl2, itss2. split; [reflexivity|]. split; [reflexivity|].
    split; [|split; [exact B|split; [exact C|split; assumption]]]. constructor; [|exact A].
    assert (L : lenN (@nil (val V)) < most d) by (rewrite lenN_nil; unfold most, max_pos in *; destruct (h_multi (head d)) as [[mx mand]|]; lia).
    destruct (Hp1 L) as [U|(_ & U & _)]; [|congruence]. pose proof (unused_items _ _ _ _ _ _ _ H U) as Hn. rewrite E in Hn. inversion Hn; assumption.
  - cbn [app] in E. injection E as -> E. exists [], d, ies, (s :: slots), ((it :: its) :: itss). split; [reflexivity|]. split; [reflexivity|]. split; [constructor|].
    split; [destruct P as (_ & Ht & _); inversion Ht; assumption|]. split; [constructor; assumption|]. split; [exact Hp|]. cbn [concat app]. rewrite E. reflexivity.
Qed.

Lemma ord_tells (Tail : list N -> Prop) c rest : Tail rest -> forall n ies slots itss, (length ies <= n)%nat -> All3 (part Tail c true) ies slots itss -> struct_tells true ies slots -> maxes_pos ies ->
  fills_ordered c rest Proper ies (concat itss) slots.
Proof.
  intros Hr. induction n as [|n IHn]; intros ies slots itss Hl H Hp Hm.
  - destruct H; [constructor|cbn in Hl; lia].
  - destruct H as [|d s its ies slots itss (Hc & Ht & Hdec) H]; [constructor|]. cbn [struct_tells] in Hp. destruct Hp as [Hp1 Hp2]. inversion Hm as [|? ? M1 M2]; subst. cbn [length] in Hl.
    pose proof (IHn ies slots itss (le_S_n _ _ Hl) H Hp2 M2) as IH. cbn [concat].
    assert (Hdec' : Forall2 (gives c true rest d) its s) by (eapply Forall2_impl; [|exact Hdec]; cbn; intros it v Hv; apply Hv, Hr).
    pose proof (Forall2_length _ _ _ Hdec) as Hlen. apply count_ok_cap in Hc. destruct Hc as [Hc1 Hc2].
    destruct its as [|it its].
    + inversion Hdec; subst. cbn [app]. assert (L : lenN (@nil (val V)) < most d) by (rewrite lenN_nil; unfold most, max_pos in *; destruct (h_multi (head d)) as [[mx mand]|]; lia).
      destruct (Hp1 L) as [U|(_ & U & _)]; [|congruence]. apply FO_absent; [reflexivity|exact (unused_items _ _ _ _ _ _ _ H U)| |exact IH]. rewrite lenN_nil in Hc2. lia.
    + destruct (h_multi (head d)) as [[mx mand]|] eqn:Em.
      * assert (Hs : lenN s <= mx) by (unfold cap_of in Hc1; rewrite Em in Hc1; destruct (h_pres (head d)); lia).
        assert (RUN : match next_tag (concat itss) Proper with Some t => other_tag d t | None => True end -> fills_ordered c rest Proper (d :: ies) ((it :: its) ++ concat itss) (s :: slots)).
        { intros Hn. apply (FO_run c rest Proper d ies mx mand [] (it :: its) (concat itss) s slots); [exact Em|constructor|discriminate|exact Ht| |exact Hn|exact Hdec'|exact IH]. unfold lenN, item in *. lia. }
        destruct (concat itss) as [|it2 items2] eqn:Ei; [apply RUN; exact I|]. cbn [next_tag] in RUN.
        destruct (ti_match (h_ti (head d)) (fst it2)) eqn:E2; [|apply RUN; exact E2].
        destruct (N.ltb_spec (lenN s) mx) as [L|L].
        { exfalso. unfold tells, most in Hp1. rewrite Em in Hp1. destruct (Hp1 L) as [U|(_ & _ & U)].
          - pose proof (unused_items _ _ _ _ _ _ _ H U) as Hn. rewrite Ei in Hn. inversion Hn as [|? ? Hn1 _]; subst. unfold other_tag in Hn1. congruence.
          - pose proof (next_used_item _ _ _ _ _ _ H) as N. rewrite Ei in N. destruct N as (d2 & N1 & N2). rewrite N1 in U. unfold has_tag in N2.
            rewrite ti_match_sym in N2. rewrite (ti_match_trans _ _ _ E2 N2) in U. discriminate. }
        destruct (first_used _ _ _ _ _ _ _ H Hp2 Ei M2) as (ies1 & d' & ies2 & sl2 & itss2 & -> & -> & A & B & C & D & F).
        apply (FO_jump c rest Proper d ies1 d' ies2 mx mand [] (it :: its) it2 items2 s sl2); [exact Em|constructor| | |exact Hdec'|exact A|exact B|].
        -- rewrite Forall_app. split; [exact Ht|constructor; [exact E2|constructor]].
        -- unfold lenN, item in *. lia.
        -- assert (X : fills_ordered c rest Proper (d' :: ies2) (concat itss2) sl2).
           { apply IHn; [|exact C|exact D|].
             - rewrite app_length in Hl. cbn [length] in *. lia.
             - unfold maxes_pos in *. rewrite Forall_app in M2. exact (proj2 M2). }
           rewrite F in X. exact X.
      * assert (Hs : lenN s <= 1) by (unfold cap_of in Hc1; rewrite Em in Hc1; exact Hc1). inversion Hdec' as [|? v ? vs D1 D2]; subst. rewrite lenN_cons in Hs.
        destruct D2; [|rewrite lenN_cons in Hs; lia]. inversion Ht; subst. apply (FO_single c rest Proper d ies [] it (concat itss) v slots); [exact Em|constructor|assumption|exact D1|exact IH].
Qed.

(* ---------------------------------------------------------------- the round trip *)
Lemma val_tells_nest o h nc no ies slots : val_tells o (CNest h nc no ies) (VStruct slots) -> length slots = length ies ->
  all_tell (match no with OrdSame => o | OrdOrdered => true | OrdUnordered => false end) ies slots.
Proof.
  cbn [val_tells]. set (o' := match no with OrdSame => o | OrdOrdered => true | OrdUnordered => false end). clearbody o'. intros [A B] Hl. split; [exact A|]. clear A.
  revert slots B Hl. induction ies as [|d ies IH]; intros [|s slots] B Hl; try discriminate; constructor; [tauto|]. apply IH; [tauto|cbn in Hl; lia].
Qed.

Lemma entries_rep Tail c o ies slots bs rest : cfg_ok c -> tail_closed Tail -> Tail rest -> table_any ies ->
  Forall (all_leaves (leaf_local Tail)) ies -> Forall (all_cfgs cfg_ok) ies ->
  Forall (fun d => forall v bs, val_repr Tail d c v bs -> forall o rest, val_tells o d v -> Tail rest -> dec_coding d c o (bs ++ rest) (lenN bs) = Ok v) ies ->
  struct_repr Tail c ies slots bs -> all_tell o ies slots ->
  decode_entries c o (map entry_of ies) (bs ++ rest) (lenN bs) = Ok slots.
Proof.
  intros Hok Htc Hr (Hmx & Hsm) Hl Hc Hrt Hs [Ht1 Ht2].
  destruct (struct_repr_items Tail c ies slots bs Hok Hs) as (itss & H1 & H2).
  specialize (H2 []). rewrite !app_nil_r in H2. change (parsed c []) with (@nil item, Ok tt) in H2. cbv iota beta in H2. rewrite app_nil_r in H2.
  assert (HP : All3 (part Tail c o) ies slots itss).
  { clear - H1 Hrt Ht2. induction H1 as [|d s its ies slots itss (A & B & C) H1 IH]; constructor.
    - split; [exact A|]. split; [exact B|]. inversion Ht2 as [|? ? ? ? T1 T2]; subst. inversion Hrt as [|? ? R1 R2]; subst.
      clear - C T1 R1. induction C as [|it v its s Hv C IH]; [constructor|]. inversion T1; subst. constructor; [|apply IH; assumption]. intros r Hr. apply R1; assumption.
    - inversion Ht2; subst. apply IH; [inversion Hrt; assumption|assumption]. }
  assert (R : reads c bs (concat itss) Proper) by (apply reads_parse; [exact Hok|]; rewrite parse_parsed by exact Hok; rewrite H2; reflexivity).
  change (gtlvs_decode c o (Some ies) (bs ++ rest) (lenN bs) = Ok slots). destruct o.
  - apply (decode_ordered_any Tail c ies bs rest (concat itss) Proper); auto. eapply ord_tells; eauto.
  - apply (decode_unordered_any Tail c ies bs rest); auto. exists (concat itss). split; [exact R|]. eapply unord_tells; eauto.
Qed.

Lemma struct_repr_length Tail c : forall ies slots bs, struct_repr (V := V) Tail c ies slots bs -> length slots = length ies.
Proof. induction ies as [|d ies IH]; intros [|s slots] bs H; cbn in H; try contradiction; [reflexivity|]. destruct H as (b1 & b2 & _ & _ & _ & H). cbn. f_equal. eapply IH, H. Qed.

Lemma dec_coding_rep Tail : tail_closed Tail -> forall cd,
  all_leaves (leaf_local Tail) cd -> all_cfgs cfg_ok cd -> tables table_any cd ->
  forall c, cfg_ok c -> forall v bs, val_repr Tail cd c v bs -> forall o rest, val_tells o cd v -> Tail rest -> dec_coding cd c o (bs ++ rest) (lenN bs) = Ok v.
Proof.
  intros Htc. induction cd as [h l|h nc o ies IH] using coding_ind'; intros Hl Hc Ht c Hok v bs Hv o' rest Hp Hr.
  - destruct v as [x|slots]; [|contradiction]. cbn [val_repr] in Hv. destruct Hv as [_ (d & Hd & Hx)].
    cbn. rewrite Hd, Hx by exact Hr. reflexivity.
  - destruct v as [x|slots]; [contradiction|]. apply val_repr_nest in Hv.
    cbn [all_leaves all_cfgs tables] in *. destruct Hc as [Hc1 Hc2]. destruct Ht as [Ht1 Ht2]. rewrite fold_right_and_Forall in Hl, Hc2, Ht2.
    cbn. change (map (fun d => mkEntry (head d) (dec_coding d)) ies) with (map entry_of ies).
    assert (Hok' : cfg_ok (match nc with Some x => x | None => c end)) by (destruct nc; assumption).
    pose proof (val_tells_nest _ _ _ _ _ _ Hp (struct_repr_length _ _ _ _ _ Hv)) as Hp'.
    rewrite (entries_rep Tail _ _ ies slots bs rest); auto.
    rewrite Forall_forall in *. intros d Hd. intros v' bs' Hv' o2 rest' Hp2 Hr'. apply IH; auto.
Qed.

Theorem gtlvs_rep_roundtrip Tail c o (ies : list (coding V)) slots bs buf cap rest :
  cfg_ok c -> tail_closed Tail -> Tail rest ->
  Forall (all_leaves (leaf_local Tail)) ies -> Forall (all_cfgs cfg_ok) ies -> all_tables table_any ies ->
  struct_repr Tail c ies slots bs -> all_tell o ies slots -> lenN buf + lenN bs <= cap ->
  gtlvs_encode c cap (Some ies) buf slots = EOk (buf ++ bs)
  /\ gtlvs_decode c o (Some ies) (bs ++ rest) (lenN bs) = Ok slots.
Proof.
  intros Hok Htc Hr Hl Hc [Ht1 Ht2] Hs Hp Hcap. split; [eapply gtlvs_encode_repr; eassumption|].
  cbn [gtlvs_decode]. apply (entries_rep Tail); auto.
  rewrite Forall_forall in *. intros d Hd v bs' Hv o2 rest' Hp2 Hr'. eapply dec_coding_rep; eauto.
Qed.

(* ---------------------------------------------------------------- unordered decoding gives nothing else *)
Lemma without_app_full (d : coding V) n : forall items, (length (items_for d items) <= n)%nat -> items_for d (without d n items) = [].
Proof.
  induction n as [|n IH]; intros items; induction items as [|it items IHi]; unfold items_for in *; cbn [filter length without]; intros H; try reflexivity.
  - destruct (ti_match (h_ti (head d)) (fst it)); cbn [length] in H; [lia|]. specialize (IHi H). destruct items; exact IHi.
  - destruct (ti_match (h_ti (head d)) (fst it)) eqn:E; cbn [length] in H.
    + apply IH. lia.
    + cbn [filter]. rewrite E. apply IHi. exact H.
Qed.
Lemma without_incl (d : coding V) it : forall items n, In it (without d n items) -> In it items.
Proof.
  induction items as [|x items IH]; intros n; [destruct n; intros []|]. destruct n as [|n]; [intros H; exact H|]. cbn [without].
  destruct (ti_match (h_ti (head d)) (fst x)); [intros H; right; exact (IH _ H)|]. intros [H|H]; [left; exact H|right; exact (IH _ H)].
Qed.
Lemma fills_unused c r0 all (d : coding V) ies items slots : fills_unordered c r0 all ies items slots -> items_for d items = [] -> unused d ies slots.
Proof.
  intros H. induction H as [items F|d' ies items s slots L G R IH]; intros E; [constructor|]. constructor.
  - intros T. assert (E' : items_for d' items = []).
    { apply items_for_none. apply items_for_none in E. eapply Forall_impl; [|exact E]. cbn. intros it Hit. destruct (ti_match (h_ti (head d')) (fst it)) eqn:Q; [|reflexivity].
      rewrite (ti_match_trans _ _ _ T Q) in Hit. discriminate. }
    unfold first_of in G. rewrite E', firstn_nil in G. inversion G. reflexivity.
  - apply IH. apply items_for_none. apply items_for_none in E. rewrite Forall_forall in *. intros it Hit. apply E. eapply without_incl, Hit.
Qed.
Theorem fills_tells c r0 all ies items slots : Forall (fun d : coding V => match h_multi (head d) with Some _ => h_pres (head d) = false | None => True end) ies -> fills_unordered c r0 all ies items slots -> struct_tells false ies slots.
Proof.
  intros Hp H. induction H as [items F|d ies items s slots L G R IH]; [exact I|]. inversion Hp as [|? ? P1 P2]; subst. cbn [struct_tells]. split; [|exact (IH P2)].
  intros Lt. left. eapply fills_unused; [exact R|]. apply without_app_full. apply Forall2_length in G. unfold first_of in G. rewrite firstn_length in G.
  assert (cap_of (head d) = most d) by (unfold cap_of, most in *; destruct (h_multi (head d)) as [[mx mand]|]; [rewrite P1; reflexivity|reflexivity]).
  unfold lenN, item in *. lia.
Qed.

Lemma nest_val_tells o h nc no ies slots : all_tell (match no with OrdSame => o | OrdOrdered => true | OrdUnordered => false end) ies slots ->
  val_tells (V := V) o (CNest h nc no ies) (VStruct slots).
Proof.
  cbn [val_tells]. set (o' := match no with OrdSame => o | OrdOrdered => true | OrdUnordered => false end). clearbody o'. intros [A B]. split; [exact A|]. clear A.
  induction B as [|d s ies slots B1 B2 IH]; [exact I|]. split; assumption.
Qed.
Lemma fills_vals c r0 all (P : coding V -> val V -> Prop) ies items slots : fills_unordered c r0 all ies items slots ->
  Forall (fun d => forall it v, gives c false r0 d it v -> P d v) ies -> Forall2 (fun d s => Forall (P d) s) ies slots.
Proof.
  intros H. induction H as [items F|d ies items s slots L G R IH]; intros Hp; [constructor|]. inversion Hp as [|? ? P1 P2]; subst. constructor; [|exact (IH P2)].
  clear - G P1. induction G; constructor; eauto.
Qed.
Lemma entries_tell Tail c (ies : list (coding V)) d rest slots :
  cfg_ok c -> tail_closed Tail -> Tail rest -> Forall (all_leaves (leaf_local Tail)) ies -> Forall (all_cfgs cfg_ok) ies -> table_mild ies ->
  Forall (fun d => forall bs v, dec_coding d c false (bs ++ rest) (lenN bs) = Ok v -> val_tells false d v) ies ->
  gtlvs_decode c false (Some ies) (d ++ rest) (lenN d) = Ok slots -> all_tell false ies slots.
Proof.
  intros Hok Htc Hr Hl Hc ((Hm & Hs) & Hh) Hv H. apply (decode_unordered_any Tail c ies d rest slots) in H; auto. destruct H as (items & _ & F). split.
  - eapply fills_tells; eassumption.
  - eapply fills_vals; [exact F|]. rewrite Forall_forall in *. intros x Hx it v G. exact (Hv x Hx _ _ G).
Qed.
Lemma dec_coding_tells Tail : tail_closed Tail -> forall cd,
  all_leaves (leaf_local Tail) cd -> all_cfgs cfg_ok cd -> all_unordered cd -> tables table_mild cd ->
  forall c, cfg_ok c -> forall bs v rest, Tail rest -> dec_coding cd c false (bs ++ rest) (lenN bs) = Ok v -> val_tells false cd v.
Proof.
  intros Htc. induction cd as [h l|h nc o ies IH] using coding_ind'; intros Hl Hc Hu Ht c Hok bs v rest Hr H.
  - exact I.
  - cbn [all_leaves all_cfgs all_unordered tables] in *. destruct Hc as [Hc1 Hc2]. destruct Ht as [Ht1 Ht2]. destruct Hu as [Hu1 Hu2].
    rewrite fold_right_and_Forall in Hl, Hc2, Ht2, Hu2.
    cbn in H. change (map (fun d => mkEntry (head d) (dec_coding d)) ies) with (map entry_of ies) in H. apply bind_ok in H as (slots & H & E). injection E as <-.
    assert (Eo : (match o with OrdSame => false | OrdOrdered => true | OrdUnordered => false end) = false) by (destruct o; [reflexivity|congruence|reflexivity]).
    assert (Hok' : cfg_ok (match nc with Some x => x | None => c end)) by (destruct nc; assumption).
    rewrite Eo in H. apply nest_val_tells. rewrite Eo. eapply (entries_tell Tail); [|exact Htc|exact Hr|exact Hl|exact Hc2|exact Ht1| |exact H].
    + exact Hok'.
    + rewrite Forall_forall in *. intros d Hd bs' v' H'. exact (IH d Hd (Hl d Hd) (Hc2 d Hd) (Hu2 d Hd) (Ht2 d Hd) _ Hok' bs' v' rest Hr H').
Qed.
Theorem unordered_tells Tail c (ies : list (coding V)) d rest slots :
  cfg_ok c -> tail_closed Tail -> Tail rest -> Forall (all_leaves (leaf_local Tail)) ies -> Forall (all_cfgs cfg_ok) ies ->
  Forall all_unordered ies -> all_tables table_mild ies ->
  gtlvs_decode c false (Some ies) (d ++ rest) (lenN d) = Ok slots -> all_tell false ies slots.
Proof.
  intros Hok Htc Hr Hl Hc Hu [Ht1 Ht2] H. eapply entries_tell; eauto. rewrite Forall_forall in *. intros x Hx bs v Hv. eapply dec_coding_tells; eauto.
Qed.
End RR.

Theorem encode_decode_any {V} Tail c hs maxlen hdr tag_ok o (ies : list (coding V)) cap buf slots buf' rest :
  fixed_format c hs maxlen hdr tag_ok -> headers_repr c maxlen hdr tag_ok -> cfg_ok c -> tail_closed Tail -> Tail rest ->
  Forall (all_cfgs (fun x => x = c)) ies -> Forall (all_tags tag_ok) ies -> Forall (all_leaves (leaf_local Tail)) ies ->
  all_tables table_any ies -> struct_wf Tail ies slots -> all_tell o ies slots ->
  gtlvs_encode c cap (Some ies) buf slots = EOk buf' -> lenN buf' + hs <= cap -> lenN buf' <= maxlen ->
  exists bs, buf' = buf ++ bs /\ gtlvs_decode c o (Some ies) (bs ++ rest) (lenN bs) = Ok slots.
Proof.
  intros HF HH Hok Htc Hr Hc Ht Hl Htab Hwf Htell He H1 H2.
  destruct (gtlvs_encode_shape c hs maxlen hdr tag_ok HF ies cap buf slots buf' Hc Ht He H1 H2) as (bs & -> & Hs).
  exists bs. split; [reflexivity|]. rewrite lenN_app in *.
  eapply (gtlvs_rep_roundtrip Tail c o ies slots bs buf cap rest); try eassumption; [| |lia].
  - rewrite Forall_forall in *. intros d Hd. specialize (Hc d Hd). clear -Hc Hok.
    revert Hc. induction d as [h l|h nc o ies IH] using coding_ind'; cbn [all_cfgs]; [trivial|]. intros [Hn Hi].
    split; [destruct nc; [rewrite Hn; exact Hok|exact I]|]. apply fold_right_and_Forall in Hi. apply fold_right_and_Forall.
    rewrite Forall_forall in *. intros d Hd. apply IH; [exact Hd|apply Hi, Hd].
  - eapply struct_shape_repr; try eassumption. lia.
Qed.
