(* DecCharProofs.v -- what unordered decoding accepts and returns: C11, C12 *)
From Verif Require Import Base BaseProofs GtlvModel GtlvSpec GtlvProofs DecEncModel DecEncSpec DecEncProofs DecOrdProofs.

Inductive All3 {A B C} (R : A -> B -> C -> Prop) : list A -> list B -> list C -> Prop :=
| All3_nil : All3 R [] [] []
| All3_cons a b c la lb lc : R a b c -> All3 R la lb lc -> All3 R (a :: la) (b :: lb) (c :: lc).

Lemma All3_comp {A B C D} (R1 : A -> B -> C -> Prop) (R2 : A -> C -> D -> Prop) (R : A -> B -> D -> Prop) :
  (forall a b c d, R1 a b c -> R2 a c d -> R a b d) ->
  forall la lb lc, All3 R1 la lb lc -> forall ld, All3 R2 la lc ld -> All3 R la lb ld.
Proof. intros H la lb lc H1. induction H1; intros ld H2; inversion H2; subst; constructor; eauto. Qed.
Lemma All3_split {A B C D} (R1 : A -> B -> C -> Prop) (R2 : A -> C -> D -> Prop) (R : A -> B -> D -> Prop) :
  (forall a b d, R a b d -> exists c, R1 a b c /\ R2 a c d) ->
  forall la lb ld, All3 R la lb ld -> exists lc, All3 R1 la lb lc /\ All3 R2 la lc ld.
Proof.
  intros H la lb ld H1. induction H1 as [|a b d la lb ld Hr _ (lc & IH1 & IH2)]; [exists []; split; constructor|].
  destruct (H _ _ _ Hr) as (x & Hx1 & Hx2). exists (x :: lc). split; constructor; assumption.
Qed.
Lemma All3_impl {A B C} (R R' : A -> B -> C -> Prop) : (forall a b c, R a b c -> R' a b c) ->
  forall la lb lc, All3 R la lb lc -> All3 R' la lb lc.
Proof. intros H la lb lc H1. induction H1; constructor; auto. Qed.

Section Char.
Context {V : Type}.
Implicit Types (es : list (entry V)) (slots : list (slot V)) (cd : coding V) (c : cfg).


Lemma count_ok_cap h n : count_ok h n <-> n <= cap_of h /\ low_of h <= n.
Proof.
  unfold count_ok, cap_of, low_of. destruct (h_multi h) as [[mx mand]|], (h_pres h); split; intros; repeat split; try lia; intros; try discriminate; try lia.
Qed.

Lemma nonempty_len (s : slot V) : nonempty s = negb (lenN s =? 0).
Proof. destruct s; [reflexivity|]. cbn [nonempty]. rewrite lenN_cons. symmetry. apply negb_true_iff. lia. Qed.

(* place, with the two "is full" tests of the code merged *)
Lemma place_cons c e es idx al s slots ti m len : idx < seen_max ->
  place c (e :: es) idx al (s :: slots) ti m len =
  if negb (ti_match (h_ti (e_h e)) ti) then r <- place c es (idx + 1) al slots ti m len ;; Ok (s :: r) else
  if cap_of (e_h e) <=? lenN s then
    r <- place c es (idx + 1) (al + match h_multi (e_h e) with Some (mx, _) => mx | None => 1 end) slots ti m len ;; Ok (s :: r)
  else v <- e_dec e c false m len ;; Ok ((s ++ [v]) :: slots).
Proof.
  intros Hi. cbn [place]. destruct (negb (ti_match _ _)); [reflexivity|].
  assert (E : (seen_max <=? idx) = false) by lia. rewrite E, andb_false_r. rewrite nonempty_len. unfold cap_of.
  destruct (h_pres (e_h e)), (h_multi (e_h e)) as [[mx mand]|]; cbn [andb orb negb].
  - destruct (N.eqb_spec (lenN s) 0) as [E0|E0]; cbn [negb orb].
    + rewrite E0. replace (N.min 1 mx <=? 0) with (mx <=? 0) by lia. reflexivity.
    + destruct (N.leb_spec (N.min 1 mx) (lenN s)); [|lia]. reflexivity.
  - rewrite orb_false_r. destruct (N.eqb_spec (lenN s) 0) as [E0|E0]; cbn [negb].
    + destruct (N.leb_spec 1 (lenN s)); [lia|]. reflexivity.
    + destruct (N.leb_spec 1 (lenN s)); [|lia]. reflexivity.
  - reflexivity.
  - destruct (N.eqb_spec (lenN s) 0) as [E0|E0]; cbn [negb].
    + destruct (N.leb_spec 1 (lenN s)); [lia|]. reflexivity.
    + destruct (N.leb_spec 1 (lenN s)); [|lia]. reflexivity.
Qed.

Lemma place_none_left c es ti m len :
  Forall (fun e => ti_match (h_ti (e_h e)) ti = false) es ->
  forall idx al slots, al <> 0 -> place c es idx al slots ti m len = Err ENOTSUP.
Proof.
  intros Hes. induction Hes as [|e es He Hes IH]; intros idx al slots Hal; cbn [place].
  - destruct (N.eqb_spec al 0); [lia|reflexivity].
  - destruct slots as [|s slots]; [destruct (N.eqb_spec al 0); [lia|reflexivity]|].
    rewrite He. cbn [negb]. rewrite IH by exact Hal. reflexivity.
Qed.

(* ---------------------------------------------------------------- counts, for any table *)

Lemma place_cap c es ti m len : forall idx al slots slots',
  Forall2 (fun e s => lenN s <= cap_of (e_h e)) es slots -> idx + lenN es <= seen_max ->
  place c es idx al slots ti m len = Ok slots' -> Forall2 (fun e s => lenN s <= cap_of (e_h e)) es slots'.
Proof.
  induction es as [|e es IH]; intros idx al slots slots' HF Hi H; inversion HF as [|? s ? slots0 Hs HF']; subst.
  - cbn [place] in H. destruct (al =? 0); inversion H. constructor.
  - rewrite lenN_cons in Hi. rewrite place_cons in H by lia. dif_in H E1.
    { apply bind_ok in H as (r & Hr & H). inversion H; subst. constructor; [assumption|]. eapply IH; [eassumption| |eassumption]. lia. }
    dif_in H E2.
    { apply bind_ok in H as (r & Hr & H). inversion H; subst. constructor; [assumption|]. eapply IH; [eassumption| |eassumption]. lia. }
    apply bind_ok in H as (v & Hv & H). inversion H; subst. constructor; [|assumption]. rewrite lenN_app, lenN_cons, lenN_nil. lia.
Qed.

Lemma check_mand_iff es : forall idx slots, idx + lenN es <= seen_max -> length slots = length es ->
  check_mand idx es slots = if forallb (fun x => low_of (e_h (fst x)) <=? lenN (snd x)) (combine es slots) then Ok tt else Err EINVAL.
Proof.
  induction es as [|e es IH]; intros idx slots Hi Hl; destruct slots as [|s slots]; try discriminate; cbn [check_mand combine forallb fst snd].
  - reflexivity.
  - rewrite lenN_cons in Hi. cbn in Hl. unfold low_of. destruct (h_pres (e_h e)).
    { rewrite IH by lia. destruct (N.leb_spec 0 (lenN s)); [reflexivity|lia]. }
    destruct (h_multi (e_h e)) as [[mx mand]|].
    + destruct (N.ltb_spec (lenN s) mand), (N.leb_spec mand (lenN s)); try lia; [reflexivity|]. rewrite IH by lia. reflexivity.
    + destruct (N.leb_spec seen_max idx); [lia|]. rewrite nonempty_len.
      destruct (N.eqb_spec (lenN s) 0), (N.leb_spec 1 (lenN s)); try lia; [reflexivity|]. cbn [negb andb]. rewrite IH by lia. reflexivity.
Qed.

Lemma check_mand_ok es slots : lenN es <= seen_max -> length slots = length es ->
  check_mand 0 es slots = Ok tt <-> Forall2 (fun e s => low_of (e_h e) <= lenN s) es slots.
Proof.
  intros Hi Hl. rewrite check_mand_iff by (auto; lia). clear Hi. revert slots Hl.
  induction es as [|e es IH]; intros [|s slots] Hl; try discriminate; cbn [combine forallb fst snd].
  - split; constructor.
  - destruct (N.leb_spec (low_of (e_h e)) (lenN s)); cbn [andb].
    + rewrite IH by (cbn in Hl; lia). split; [intros; constructor; assumption|intros HF; inversion HF; assumption].
    + split; [discriminate|]. intros HF; inversion HF; subst. lia.
Qed.

(* values returned by the members' decoders satisfy P *)
Lemma place_vals (P : entry V -> val V -> Prop) c es ti m len :
  Forall (fun e => forall m len v, e_dec e c false m len = Ok v -> P e v) es ->
  forall idx al slots slots', Forall2 (fun e s => Forall (P e) s) es slots ->
  place c es idx al slots ti m len = Ok slots' -> Forall2 (fun e s => Forall (P e) s) es slots'.
Proof.
  intros Hes. induction Hes as [|e es He Hes IH]; intros idx al slots slots' HF H; inversion HF as [|? s ? slots0 Hs HF']; subst; cbn [place] in H.
  - destruct (al =? 0); inversion H. constructor.
  - dif_in H E1. { apply bind_ok in H as (r & Hr & H). inversion H; subst. constructor; eauto. }
    dif_in H E2. { apply bind_ok in H as (r & Hr & H). inversion H; subst. constructor; eauto. }
    dif_in H E3; [discriminate|].
    dif_in H E4. { apply bind_ok in H as (r & Hr & H). inversion H; subst. constructor; eauto. }
    apply bind_ok in H as (v & Hv & H). dif_in H E5; inversion H; subst. constructor; [|assumption].
    apply Forall_app. split; [assumption|]. constructor; [|constructor]. eapply He, Hv.
Qed.

Lemma walk_inv (Q : list (slot V) -> Prop) c es :
  (forall slots ti m len slots', Q slots -> place c es 0 0 slots ti m len = Ok slots' -> Q slots') ->
  forall fuel m left slots slots', Q slots -> walk fuel c es m left slots = Ok slots' -> Q slots'.
Proof.
  intros HQ. induction fuel as [|f IH]; intros m left slots slots' Hq H; cbn [walk] in H; [discriminate|].
  dif_in H E0; [inversion H; subst; exact Hq|]. dif_in H E1; [discriminate|].
  destruct (cfg_load c m left) as [[[ti len] h]|e|u]; try discriminate. dif_in H E2; [discriminate|].
  apply bind_ok in H as (s1 & H1 & H). eapply IH; [|exact H]. eapply HQ; eassumption.
Qed.

Lemma decode_unordered_inv (Q : list (slot V) -> Prop) c es m srclen slots :
  (forall slots ti m len slots', Q slots -> place c es 0 0 slots ti m len = Ok slots' -> Q slots') ->
  Q (init_slots es) -> decode_unordered c es m srclen = Ok slots -> Q slots /\ check_mand 0 es slots = Ok tt.
Proof.
  intros HQ H0 H. unfold decode_unordered in H. rewrite unord_loop_walk in H by (unfold ld_pos; cbn; lia).
  apply bind_ok in H as (s & Hs & H). apply bind_ok in H as ([] & Hc & H). inversion H; subst. split; [|exact Hc].
  eapply walk_inv; eassumption.
Qed.

Lemma Forall2_and {A B} (P Q : A -> B -> Prop) la lb :
  Forall2 P la lb -> Forall2 Q la lb -> Forall2 (fun a b => P a b /\ Q a b) la lb.
Proof. intros H. induction H; intros H2; inversion H2; subst; constructor; auto. Qed.
Lemma Forall2_map_l {A B C} (f : A -> B) (P : B -> C -> Prop) la lc :
  Forall2 P (map f la) lc <-> Forall2 (fun a x => P (f a) x) la lc.
Proof.
  revert lc. induction la as [|a la IH]; intros lc; cbn [map]; split; intros H; inversion H; subst; constructor; auto; apply IH; assumption.
Qed.

(* a table all of whose nested structs are decoded unordered *)



Lemma counts_ok_nest h nc o ies slots : counts_ok (CNest h nc o ies) (VStruct slots) <-> struct_ok ies slots.
Proof.
  cbn [counts_ok]. revert slots. induction ies as [|d ies IH]; intros [|s slots]; cbn.
  - split; [constructor|trivial].
  - split; [contradiction|intros H; inversion H].
  - split; [contradiction|intros H; inversion H].
  - rewrite IH. split; [intros (H1 & H2 & H3); constructor; auto|intros H; inversion H; subst; tauto].
Qed.

Lemma entries_struct_ok c (ies : list (coding V)) m len slots :
  small_table ies ->
  Forall (fun d => forall m len v, dec_coding d c false m len = Ok v -> counts_ok d v) ies ->
  decode_unordered c (map entry_of ies) m len = Ok slots -> struct_ok ies slots.
Proof.
  intros Hsm Hd H.
  destruct (decode_unordered_inv (fun slots => Forall2 (fun e s => lenN s <= cap_of (e_h e)) (map entry_of ies) slots) c (map entry_of ies) m len slots) as [HC Hm]; [| |exact H|].
  { intros s0 ti m0 len0 s1 H0 H1. eapply place_cap; [exact H0| |exact H1]. unfold small_table, seen_max, lenN in *. rewrite map_length. lia. }
  { clear. induction ies; constructor; auto. cbn [e_h entry_of]. rewrite lenN_nil. lia. }
  assert (HV : Forall2 (fun d s => Forall (counts_ok d) s) ies slots).
  { apply (decode_unordered_inv (fun slots => Forall2 (fun d s => Forall (counts_ok d) s) ies slots) c (map entry_of ies) m len slots); [| |exact H].
    - assert (G : forall es' ies', map entry_of ies' = es' -> Forall (fun d => forall m len v, dec_coding d c false m len = Ok v -> counts_ok d v) ies' ->
        forall idx al slots slots' ti m len, Forall2 (fun d s => Forall (counts_ok d) s) ies' slots -> place c es' idx al slots ti m len = Ok slots' -> Forall2 (fun d s => Forall (counts_ok d) s) ies' slots').
      { clear. intros es' ies' <- Hd. induction Hd as [|d ies He Hes IH]; intros idx al slots slots' ti m len HF H; inversion HF as [|? s ? slots0 Hs HF']; subst; cbn [place map] in H.
        - destruct (al =? 0); inversion H. constructor.
        - dif_in H E1. { apply bind_ok in H as (r & Hr & H). inversion H; subst. constructor; eauto. }
          dif_in H E2. { apply bind_ok in H as (r & Hr & H). inversion H; subst. constructor; eauto. }
          dif_in H E3; [discriminate|].
          dif_in H E4. { apply bind_ok in H as (r & Hr & H). inversion H; subst. constructor; eauto. }
          apply bind_ok in H as (v & Hv & H). dif_in H E5; inversion H; subst. constructor; [|assumption].
          apply Forall_app. split; [assumption|]. constructor; [|constructor]. eapply He, Hv. }
      intros s0 ti m0 len0 s1 H0 H1. eapply G; eauto.
    - clear. induction ies; constructor; auto. }
  pose proof (Forall2_length _ _ _ HC) as Hlen. rewrite check_mand_ok in Hm; [|unfold small_table, seen_max, lenN in *; rewrite map_length; lia|auto].
  rewrite Forall2_map_l in HC, Hm. unfold struct_ok.
  pose proof (Forall2_and _ _ _ _ (Forall2_and _ _ _ _ HC Hm) HV) as HA.
  eapply Forall2_impl; [|exact HA]. cbn. intros d s [[A B] C]. split; [|exact C]. apply count_ok_cap. auto.
Qed.

Lemma dec_coding_counts : forall cd, all_unordered cd -> tables small_table cd ->
  forall c m len v, dec_coding cd c false m len = Ok v -> counts_ok cd v.
Proof.
  induction cd as [h l|h nc o ies IH] using coding_ind'; intros Hu Ht c m len v H.
  - cbn in H. destruct (lf_dec l); [|discriminate]. apply bind_ok in H as (x & _ & H). inversion H. exact I.
  - cbn [all_unordered tables] in *. destruct Hu as [Ho Hu]. destruct Ht as [Ht1 Ht2]. rewrite fold_right_and_Forall in Hu, Ht2.
    cbn in H. change (map (fun d => mkEntry (head d) (dec_coding d)) ies) with (map entry_of ies) in H.
    apply bind_ok in H as (slots & Hs & H). inversion H; subst. apply counts_ok_nest.
    assert (Hs' : decode_unordered (match nc with Some x => x | None => c end) (map entry_of ies) m len = Ok slots) by (destruct o; [exact Hs|congruence|exact Hs]).
    eapply entries_struct_ok; [exact Ht1| |exact Hs'].
    rewrite Forall_forall in *. intros d Hd m0 len0 v0 H0. eapply IH; eauto.
Qed.

Theorem gtlvs_decode_counts c ies m len slots :
  Forall all_unordered ies -> all_tables small_table ies ->
  gtlvs_decode c false (Some ies) m len = Ok slots -> struct_ok ies slots.
Proof.
  intros Hu [Ht1 Ht2] H. cbn in H. eapply entries_struct_ok; [exact Ht1| |exact H].
  rewrite Forall_forall in *. intros d Hd m0 len0 v0 H0. eapply dec_coding_counts; eauto.
Qed.

(* ---------------------------------------------------------------- exact contents, tables with distinct tags *)

Definition entry_items (e : entry V) (items : list item) : list item := filter (fun it => ti_match (h_ti (e_h e)) (fst it)) items.
Definition dec_item c (r0 : list N) (e : entry V) (it : item) (v : val V) : Prop :=
  e_dec e c false (snd it ++ r0) (lenN (snd it)) = Ok v.
(* s' = s plus the decoded values of all items of this entry's tag *)
Definition adds c r0 items (e : entry V) (s s' : slot V) : Prop :=
  exists vs, s' = s ++ vs /\ Forall2 (dec_item c r0 e) (entry_items e items) vs /\ (vs = [] \/ lenN s' <= cap_of (e_h e)).

Fixpoint es_distinct es : Prop :=
  match es with
  | [] => True
  | e :: es' => Forall (fun e' => ti_match (h_ti (e_h e)) (h_ti (e_h e')) = false) es' /\ es_distinct es'
  end.

Lemma distinct_others (e : entry V) es ti : Forall (fun e' : entry V => ti_match (h_ti (e_h e)) (h_ti (e_h e')) = false) es ->
  ti_match (h_ti (e_h e)) ti = true -> Forall (fun e' => ti_match (h_ti (e_h e')) ti = false) es.
Proof.
  intros H Ht. eapply Forall_impl; [|exact H]. cbn. intros e' He.
  destruct (ti_match (h_ti (e_h e')) ti) eqn:E; [|reflexivity].
  rewrite ti_match_sym in E. rewrite (ti_match_trans _ _ _ Ht E) in He. discriminate.
Qed.

Definition step c r0 (it : item) (e : entry V) (s s' : slot V) : Prop :=
  if ti_match (h_ti (e_h e)) (fst it)
  then lenN s < cap_of (e_h e) /\ exists v, dec_item c r0 e it v /\ s' = s ++ [v]
  else s' = s.

Lemma step_refl c r0 it es : Forall (fun e' => ti_match (h_ti (e_h e')) (fst it) = false) es ->
  forall slots slots', length slots = length es -> (All3 (step c r0 it) es slots slots' <-> slots' = slots).
Proof.
  intros H. induction H as [|e es He H IH]; intros slots slots' Hl; destruct slots as [|s slots]; try discriminate.
  - split; [intros HA; inversion HA; reflexivity|intros ->; constructor].
  - cbn in Hl. split.
    + intros HA. inversion HA as [|? ? s' ? ? slots'' Hst HA']; subst. unfold step in Hst. rewrite He in Hst. subst.
      f_equal. apply IH; [lia|assumption].
    + intros ->. constructor; [unfold step; rewrite He; reflexivity|]. apply IH; [lia|reflexivity].
Qed.

Lemma place_step c r0 it es : es_distinct es -> Forall (fun e => max_pos (e_h e)) es ->
  forall idx slots slots', length slots = length es -> idx + lenN es <= seen_max ->
  (place c es idx 0 slots (fst it) (snd it ++ r0) (lenN (snd it)) = Ok slots' <-> All3 (step c r0 it) es slots slots').
Proof.
  induction es as [|e es IH]; intros Hd Hmx idx slots slots' Hl Hi; destruct slots as [|s slots]; try discriminate.
  - cbn [place]. rewrite N.eqb_refl. split; [intros H; inversion H; constructor|intros H; inversion H; reflexivity].
  - destruct Hd as [Hd1 Hd2]. inversion Hmx as [|? ? Hm1 Hm2]; subst. rewrite lenN_cons in Hi. cbn in Hl. rewrite place_cons by lia.
    destruct (ti_match (h_ti (e_h e)) (fst it)) eqn:Et; cbn [negb].
    + pose proof (distinct_others _ _ _ Hd1 Et) as Hoth.
      destruct (N.leb_spec (cap_of (e_h e)) (lenN s)).
      * rewrite place_none_left; [|exact Hoth|].
        { split; [discriminate|]. intros HA. inversion HA as [|? ? s' ? ? slots'' Hst HA']; subst. unfold step in Hst. rewrite Et in Hst. lia. }
        unfold max_pos in Hm1. destruct (h_multi (e_h e)) as [[mx mand]|]; lia.
      * split.
        -- intros HA. apply bind_ok in HA as (v & Hv & HA). inversion HA; subst. constructor.
           ++ unfold step. rewrite Et. split; [lia|]. exists v. split; [exact Hv|reflexivity].
           ++ apply (proj2 (step_refl c r0 it es Hoth slots slots ltac:(lia))). reflexivity.
        -- intros HA. inversion HA as [|? ? s' ? ? slots'' Hst HA']; subst. unfold step in Hst. rewrite Et in Hst.
           destruct Hst as (_ & v & Hv & ->). unfold dec_item in Hv. rewrite Hv. cbn [bind].
           apply (step_refl c r0 it es Hoth slots slots'' ltac:(lia)) in HA'. subst. reflexivity.
    + split.
      * intros HA. apply bind_ok in HA as (r & Hr & HA). inversion HA; subst. constructor; [unfold step; rewrite Et; reflexivity|].
        apply (IH Hd2 Hm2 (idx + 1)); [lia|lia|exact Hr].
      * intros HA. inversion HA as [|? ? s' ? ? slots'' Hst HA']; subst. unfold step in Hst. rewrite Et in Hst. subst.
        apply (IH Hd2 Hm2 (idx + 1)) in HA'; [|lia|lia]. rewrite HA'. reflexivity.
Qed.

Lemma All3_len {A B C} (R : A -> B -> C -> Prop) la lb lc : All3 R la lb lc -> length lb = length la /\ length lc = length la.
Proof. intros H. induction H; cbn; [auto|]. lia. Qed.

Lemma adds_nil_eq c r0 es : forall slots slots', All3 (adds c r0 []) es slots slots' -> slots' = slots.
Proof.
  intros slots slots' H. induction H as [|e s s' es slots slots' (vs & -> & Hv & _) H IH]; [reflexivity|].
  inversion Hv; subst. rewrite app_nil_r. f_equal; auto.
Qed.
Lemma adds_nil_refl c r0 es : forall slots, length slots = length es -> All3 (adds c r0 []) es slots slots.
Proof.
  induction es as [|e es IH]; intros [|s slots] Hl; try discriminate; constructor; [|apply IH; cbn in Hl; lia].
  exists []. rewrite app_nil_r. repeat split; [constructor|left; reflexivity].
Qed.

Lemma fold_place_adds c r0 es : es_distinct es -> Forall (fun e => max_pos (e_h e)) es -> lenN es <= seen_max ->
  forall items slots slots', length slots = length es ->
  (fold_place c es r0 slots items = Ok slots' <-> All3 (adds c r0 items) es slots slots').
Proof.
  intros Hd Hmx Hi. induction items as [|it items IH]; intros slots slots' Hl; cbn [fold_place].
  - split; [intros H; inversion H; subst; apply adds_nil_refl, Hl|intros H; apply adds_nil_eq in H; subst; reflexivity].
  - split.
    + intros H. apply bind_ok in H as (s1 & H1 & H2). unfold place_item in H1. apply place_step in H1; auto; try lia.
      pose proof (All3_len _ _ _ _ H1) as [_ Hl1]. apply IH in H2; [|exact Hl1].
      eapply All3_comp; [|exact H1|exact H2]. clear. intros e s s1 s2 Hs (vs & -> & Hv & Hc).
      unfold adds, entry_items in *. cbn [filter]. unfold step in Hs. destruct (ti_match _ (fst it)).
      * destruct Hs as (Hlt & v & Hv1 & ->). exists (v :: vs). rewrite <- app_assoc. split; [reflexivity|]. split; [constructor; assumption|].
        right. destruct Hc as [->|Hc]; [rewrite !lenN_app, lenN_cons, lenN_nil; lia|]. rewrite <- app_assoc in Hc. exact Hc.
      * subst s1. exists vs. auto.
    + intros H.
      assert (HS : exists s1, All3 (step c r0 it) es slots s1 /\ All3 (adds c r0 items) es s1 slots').
      { eapply All3_split; [|exact H]. clear. intros e s s2 (vs & -> & Hv & Hc). unfold entry_items in Hv. cbn [filter] in Hv.
        unfold step, adds, entry_items. destruct (ti_match _ (fst it)).
        - inversion Hv as [|? v ? vs' Hv1 Hv2]; subst. destruct Hc as [Hc|Hc]; [discriminate|]. rewrite lenN_app, lenN_cons in Hc.
          exists (s ++ [v]). split; [split; [lia|exists v; auto]|]. exists vs'. rewrite <- app_assoc. split; [reflexivity|]. split; [assumption|].
          right. cbn [app]. rewrite lenN_app, lenN_cons. lia.
        - exists s. split; [reflexivity|]. exists vs. auto. }
      destruct HS as (s1 & H1 & H2). unfold place_item. pose proof (All3_len _ _ _ _ H1) as [_ Hl1].
      apply (place_step c r0 it es Hd Hmx 0) in H1; [|exact Hl|lia]. rewrite H1. cbn [bind]. apply IH; assumption.
Qed.

Lemma distinct_es (ies : list (coding V)) : distinct_tags ies -> es_distinct (map entry_of ies).
Proof.
  induction ies as [|d ies IH]; cbn [map es_distinct]; [trivial|]. intros H. split.
  - apply Forall_map, Forall_forall. intros d' Hd'. apply In_nth_error in Hd' as (j & Hj). cbn.
    apply (H 0%nat (S j)); [lia|reflexivity|exact Hj].
  - apply IH. intros i j a b Hij Ha Hb. apply (H (S i) (S j)); [lia|exact Ha|exact Hb].
Qed.

Lemma All3_init c r0 items (ies : list (coding V)) slots :
  All3 (adds c r0 items) (map entry_of ies) (init_slots (map entry_of ies)) slots
  <-> Forall2 (fun d s => (s = [] \/ lenN s <= cap_of (head d)) /\
        Forall2 (fun it v => dec_coding d c false (snd it ++ r0) (lenN (snd it)) = Ok v) (items_for d items) s) ies slots.
Proof.
  revert slots. induction ies as [|d ies IH]; intros slots; cbn [map init_slots]; split; intros H.
  - inversion H; constructor.
  - inversion H; constructor.
  - inversion H as [|? ? s ? ? slots' Hs H']; subst. constructor; [|apply IH; assumption].
    destruct Hs as (vs & -> & Hv & Hc). split; [exact Hc|exact Hv].
  - inversion H as [|? s ? slots' [Hc Hv] H']; subst. constructor; [|apply IH; assumption].
    exists s. cbn [app]. auto.
Qed.

(* what an entry contributes, in terms of the item list *)

Theorem decode_unordered_iff Tail c (ies : list (coding V)) d rest slots :
  cfg_ok c -> tail_closed Tail -> Tail rest ->
  Forall (all_leaves (leaf_local Tail)) ies -> Forall (all_cfgs cfg_ok) ies ->
  distinct_tags ies -> maxes_pos ies -> small_table ies ->
  (gtlvs_decode c false (Some ies) (d ++ rest) (lenN d) = Ok slots <->
   exists items, parse c d (lenN d) = Ok items /\ Forall2 (member_of c rest items) ies slots).
Proof.
  intros Hok Htc Hr Hl Hc Hd Hmx Hsm. cbn [gtlvs_decode decode_entries].
  assert (HL : Forall (entry_local Tail c false) (map entry_of ies)).
  { apply Forall_map. rewrite Forall_forall in *. intros x Hx. apply dec_coding_local; auto. }
  rewrite (decode_unordered_items Tail c _ rest) by assumption. rewrite parse_parsed by assumption.
  destruct (parsed c d) as [items st].
  assert (Hlen : forall X : list (slot V), length X = length ies -> length X = length (map entry_of ies)) by (intros; rewrite map_length; assumption).
  assert (Hsm' : lenN (map entry_of ies) <= seen_max) by (unfold small_table, seen_max, lenN in *; rewrite map_length; exact Hsm).
  assert (HFP := fun slots => fold_place_adds c rest (map entry_of ies) (distinct_es _ Hd) ltac:(apply Forall_map; exact Hmx) Hsm' items
                  (init_slots (map entry_of ies)) slots ltac:(unfold init_slots; apply map_length)).
  split.
  - intros H. apply bind_ok in H as (s & Hs & H). apply bind_ok in H as (u & Hu & H). apply bind_ok in H as ([] & Hm & H). inversion H; subst s.
    exists items. rewrite Hu. split; [reflexivity|]. apply HFP in Hs. apply All3_init in Hs.
    pose proof (Forall2_length _ _ _ Hs) as Hlen2.
    apply check_mand_ok in Hm; [|exact Hsm'|apply Hlen; auto]. rewrite Forall2_map_l in Hm.
    eapply Forall2_impl; [|exact (Forall2_and _ _ _ _ Hs Hm)]. cbn. intros x s [[A B] C]. split; [|exact B].
    apply count_ok_cap. split; [|exact C]. destruct A as [->|A]; [rewrite lenN_nil; lia|exact A].
  - intros (items' & Hp & HF). destruct st as [u|e|u]; try discriminate. cbn in Hp. inversion Hp; subst items'.
    assert (Hs : fold_place c (map entry_of ies) rest (init_slots (map entry_of ies)) items = Ok slots).
    { apply HFP. apply All3_init. eapply Forall2_impl; [|exact HF]. cbn. intros x s [A B]. split; [|exact B].
      right. apply count_ok_cap in A. tauto. }
    rewrite Hs. cbn [bind].
    assert (Hm : check_mand 0 (map entry_of ies) slots = Ok tt).
    { pose proof (Forall2_length _ _ _ HF). apply check_mand_ok; [exact Hsm'|apply Hlen; auto|]. rewrite Forall2_map_l.
      eapply Forall2_impl; [|exact HF]. cbn. intros x s [A B]. apply count_ok_cap in A. tauto. }
    rewrite Hm. reflexivity.
Qed.

(* ---------------------------------------------------------------- the error codes *)

(* surplus IE *)
Theorem decode_surplus Tail c rep hdr (ies : list (coding V)) items1 it items2 slots1 rest :
  cfg_ok c -> cfg_rt c rep hdr -> tail_closed Tail -> Tail rest ->
  Forall (all_leaves (leaf_local Tail)) ies -> Forall (all_cfgs cfg_ok) ies ->
  distinct_tags ies -> maxes_pos ies -> small_table ies ->
  rep_items rep (items1 ++ it :: items2) ->
  Forall2 (fun d s => lenN s <= cap_of (head d) /\
     Forall2 (fun it v => dec_coding d c false (snd it ++ rest) (lenN (snd it)) = Ok v) (items_for d items1) s) ies slots1 ->
  Exists (fun d => ti_match (h_ti (head d)) (fst it) = true /\ lenN (items_for d items1) = cap_of (head d)) ies ->
  gtlvs_decode c false (Some ies) (ser hdr (items1 ++ it :: items2) ++ rest) (lenN (ser hdr (items1 ++ it :: items2))) = Err ENOTSUP.
Proof.
  intros Hok Hrt Htc Hr Hl Hc Hd Hmx Hsm Hrep H1 Hex. cbn [gtlvs_decode decode_entries].
  assert (HL : Forall (entry_local Tail c false) (map entry_of ies)).
  { apply Forall_map. rewrite Forall_forall in *. intros x Hx. apply dec_coding_local; auto. }
  rewrite (decode_unordered_items Tail c _ rest) by assumption.
  pose proof (parsed_ser c rep hdr _ [] Hok Hrt Hrep) as Hp. rewrite !app_nil_r in Hp. rewrite Hp.
  change (parsed c []) with (@nil item, Ok tt). cbv iota beta. rewrite app_nil_r.
  assert (Hsm' : lenN (map entry_of ies) <= seen_max) by (unfold small_table, seen_max, lenN in *; rewrite map_length; exact Hsm).
  assert (Hs : fold_place c (map entry_of ies) rest (init_slots (map entry_of ies)) items1 = Ok slots1).
  { apply fold_place_adds; [apply distinct_es, Hd|apply Forall_map; exact Hmx|exact Hsm'|unfold init_slots; apply map_length|].
    apply All3_init. eapply Forall2_impl; [|exact H1]. cbn. tauto. }
  rewrite fold_place_app, Hs. cbn [bind fold_place]. unfold place_item.
  assert (G : forall (ys : list (coding V)) idx slots, es_distinct (map entry_of ys) -> maxes_pos ys -> idx + lenN ys <= seen_max ->
     Forall2 (fun d s => lenN s = lenN (items_for d items1)) ys slots ->
     Exists (fun d => ti_match (h_ti (head d)) (fst it) = true /\ lenN (items_for d items1) = cap_of (head d)) ys ->
     place c (map entry_of ys) idx 0 slots (fst it) (snd it ++ rest) (lenN (snd it)) = Err ENOTSUP).
  { clear. induction ys as [|e ys IH]; intros idx slots Hd Hmx Hi HF Hex; inversion HF as [|? s ? slots0 Hs HF']; subst; [inversion Hex|].
    cbn [map es_distinct] in *. destruct Hd as [Hd1 Hd2]. rewrite lenN_cons in Hi. rewrite place_cons by lia. cbn [e_h entry_of].
    inversion Hmx as [|? ? Hm1 Hm2]; subst.
    inversion Hex as [? ? [Ht Hcap]|? ? Hex']; subst.
    - rewrite Ht. cbn [negb]. destruct (N.leb_spec (cap_of (head e)) (lenN s)); [|lia].
      rewrite place_none_left; [reflexivity| |].
      + eapply distinct_others; [exact Hd1|exact Ht].
      + unfold max_pos in Hm1. destruct (h_multi (head e)) as [[mx mand]|]; lia.
    - destruct (ti_match (h_ti (head e)) (fst it)) eqn:Et; cbn [negb].
      + exfalso. pose proof (distinct_others (entry_of e) (map entry_of ys) (fst it) Hd1 Et) as Ho. rewrite Forall_map in Ho. rewrite Forall_forall in Ho.
        apply Exists_exists in Hex' as (x & Hx & Hxt & _). specialize (Ho x Hx). cbn in Ho. congruence.
      + rewrite IH; auto. lia. }
  rewrite G; [reflexivity|apply distinct_es, Hd|exact Hmx|unfold small_table in Hsm; unfold seen_max; lia| |exact Hex].
  eapply Forall2_impl; [|exact H1]. cbn. intros d s [_ HF]. apply Forall2_length in HF. unfold lenN. rewrite <- HF. reflexivity.
Qed.

(* missing mandatory IE *)
Theorem decode_missing Tail c (ies : list (coding V)) d items slots rest :
  cfg_ok c -> tail_closed Tail -> Tail rest ->
  Forall (all_leaves (leaf_local Tail)) ies -> Forall (all_cfgs cfg_ok) ies ->
  distinct_tags ies -> maxes_pos ies -> small_table ies ->
  parse c d (lenN d) = Ok items ->
  Forall2 (fun d s => lenN s <= cap_of (head d) /\
     Forall2 (fun it v => dec_coding d c false (snd it ++ rest) (lenN (snd it)) = Ok v) (items_for d items) s) ies slots ->
  Exists (fun d => lenN (items_for d items) < low_of (head d)) ies ->
  gtlvs_decode c false (Some ies) (d ++ rest) (lenN d) = Err EINVAL.
Proof.
  intros Hok Htc Hr Hl Hc Hd Hmx Hsm Hp H1 Hex. cbn [gtlvs_decode decode_entries].
  assert (HL : Forall (entry_local Tail c false) (map entry_of ies)).
  { apply Forall_map. rewrite Forall_forall in *. intros x Hx. apply dec_coding_local; auto. }
  rewrite (decode_unordered_items Tail c _ rest) by assumption. rewrite parse_parsed in Hp by assumption.
  destruct (parsed c d) as [items' st]. destruct st as [u|e|u]; try discriminate. cbn in Hp. inversion Hp; subst items'.
  assert (Hsm' : lenN (map entry_of ies) <= seen_max) by (unfold small_table, seen_max, lenN in *; rewrite map_length; exact Hsm).
  assert (Hs : fold_place c (map entry_of ies) rest (init_slots (map entry_of ies)) items = Ok slots).
  { apply fold_place_adds; [apply distinct_es, Hd|apply Forall_map; exact Hmx|exact Hsm'|unfold init_slots; apply map_length|].
    apply All3_init. eapply Forall2_impl; [|exact H1]. cbn. tauto. }
  rewrite Hs. cbn [bind]. pose proof (Forall2_length _ _ _ H1) as HL2.
  rewrite check_mand_iff by (rewrite ?map_length; auto; lia).
  assert (Hx : forallb (fun x => low_of (e_h (fst x)) <=? lenN (snd x)) (combine (map entry_of ies) slots) = false).
  { clear - H1 Hex. induction H1 as [|x s ies slots [_ HF] H1 IH]; [inversion Hex|]. cbn [map combine forallb fst snd].
    inversion Hex as [? ? Hlt|? ? Hex']; subst.
    - apply Forall2_length in HF. destruct (N.leb_spec (low_of (e_h (entry_of x))) (lenN s)); [|reflexivity].
      exfalso. cbn [e_h entry_of] in *. unfold lenN, item in *. lia.
    - rewrite IH by assumption. apply andb_false_r. }
  rewrite Hx. reflexivity.
Qed.

End Char.
