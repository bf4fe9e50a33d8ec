(* RepUnordProofs.v -- C85: what unordered decoding makes of any table *)
From Verif Require Import Base BaseProofs GtlvModel GtlvSpec GtlvProofs DecEncModel DecEncSpec DecEncProofs DecOrdProofs DecCharProofs RepSpec RepProofs.

Section UR.
Context {V : Type}.
Implicit Types (es : list (entry V)) (slots : list (slot V)) (cd : coding V) (c : cfg).

(* placing of IEs each of which carries the number of values that entries before [es] may take of it *)
Fixpoint fold_from c es (idx : N) (r0 : list N) slots (l : list (N * item)) : res (list (slot V)) :=
  match l with
  | [] => Ok slots
  | (al, it) :: l' => s <- place c es idx al slots (fst it) (snd it ++ r0) (lenN (snd it)) ;; fold_from c es idx r0 s l'
  end.
Lemma fold_from_start c es r0 items : forall slots, fold_place c es r0 slots items = fold_from c es 0 r0 slots (map (fun it => (0, it)) items).
Proof. induction items as [|it items IH]; intros slots; [reflexivity|]. cbn [fold_place map fold_from]. unfold place_item. apply bind_ext. intros s _. apply IH. Qed.

(* what an entry leaves *)
Fixpoint left_by (d : coding V) (n : nat) (l : list (N * item)) : list (N * item) :=
  match l with
  | [] => []
  | (al, it) :: l' =>
    if ti_match (h_ti (head d)) (fst it) then match n with S k => left_by d k l' | O => (al + most d, it) :: left_by d O l' end
    else (al, it) :: left_by d n l'
  end.
Lemma left_by_items d l : forall n, map snd (left_by d n l) = without d n (map snd l).
Proof.
  induction l as [|[al it] l IH]; intros n; cbn [left_by map snd]; [destruct n; reflexivity|]. destruct n as [|k]; cbn [without].
  - destruct (ti_match (h_ti (head d)) (fst it)); cbn [map snd]; rewrite IH; destruct (map snd l); reflexivity.
  - destruct (ti_match (h_ti (head d)) (fst it)); cbn [map snd]; rewrite IH; reflexivity.
Qed.

Lemma fold_entry c (d : coding V) es idx r0 : idx < seen_max -> forall l s slots out,
  (fold_from c (entry_of d :: es) idx r0 (s :: slots) l = Ok out <->
   exists vs out', out = (s ++ vs) :: out' /\ Forall2 (gives c false r0 d) (firstn (N.to_nat (cap_of (head d) - lenN s)) (items_for d (map snd l))) vs /\
     fold_from c es (idx + 1) r0 slots (left_by d (N.to_nat (cap_of (head d) - lenN s)) l) = Ok out').
Proof.
  intros Hi. induction l as [|[al it] l IH]; intros s slots out.
  - cbn [fold_from left_by map items_for filter]. rewrite firstn_nil. split.
    + intros [= <-]. exists [], slots. rewrite app_nil_r. split; [reflexivity|]. split; [constructor|reflexivity].
    + intros (vs & out' & -> & A & [= <-]). inversion A; subst. rewrite app_nil_r. reflexivity.
  - cbn [fold_from left_by map snd]. rewrite place_cons by exact Hi. unfold items_for. cbn [filter]. fold (items_for d (map snd l)). cbn [entry_of e_h e_dec].
    destruct (ti_match (h_ti (head d)) (fst it)) eqn:Et; cbn [negb].
    + destruct (N.leb_spec (cap_of (head d)) (lenN s)) as [Hc|Hc].
      * replace (N.to_nat (cap_of (head d) - lenN s)) with O in * by lia. cbn [firstn fold_from]. rewrite bind_assoc. unfold most. split.
        -- intros H. apply bind_ok in H as (r & H1 & H2). cbn [bind] in H2. apply IH in H2. replace (N.to_nat (cap_of (head d) - lenN s)) with O in H2 by lia. cbn [firstn] in H2.
           destruct H2 as (vs & out' & -> & A & B). exists vs, out'. split; [reflexivity|]. split; [exact A|]. rewrite H1. cbn [bind]. exact B.
        -- intros (vs & out' & -> & A & B). apply bind_ok in B as (r & H1 & H2). rewrite H1. cbn [bind]. apply IH. replace (N.to_nat (cap_of (head d) - lenN s)) with O by lia. cbn [firstn].
           exists vs, out'. split; [reflexivity|]. split; [exact A|exact H2].
      * replace (N.to_nat (cap_of (head d) - lenN s)) with (S (N.to_nat (cap_of (head d) - (lenN s + 1)))) by lia. cbn [firstn]. rewrite bind_assoc. split.
        -- intros H. apply bind_ok in H as (v & H1 & H2). cbn [bind] in H2. apply IH in H2. rewrite lenN_app, lenN_cons, lenN_nil in H2.
           destruct H2 as (vs & out' & -> & A & B). exists (v :: vs), out'. rewrite <- app_assoc. split; [reflexivity|]. split; [constructor; [exact H1|exact A]|exact B].
        -- intros (vs & out' & -> & A & B). inversion A as [|? v ? vs' A1 A2]; subst. unfold gives in A1. rewrite A1. cbn [bind]. apply IH. rewrite lenN_app, lenN_cons, lenN_nil.
           exists vs', out'. rewrite <- app_assoc. split; [reflexivity|]. split; [exact A2|exact B].
    + rewrite bind_assoc. cbn [fold_from]. split.
      * intros H. apply bind_ok in H as (r & H1 & H2). cbn [bind] in H2. apply IH in H2. destruct H2 as (vs & out' & -> & A & B). exists vs, out'. split; [reflexivity|]. split; [exact A|].
        rewrite H1. cbn [bind]. exact B.
      * intros (vs & out' & -> & A & B). apply bind_ok in B as (r & H1 & H2). rewrite H1. cbn [bind]. apply IH. exists vs, out'. split; [reflexivity|]. split; [exact A|exact H2].
Qed.

(* the count is zero as long as no entry has had the tag *)
Definition counted (pre : list (coding V)) (l : list (N * item)) : Prop := Forall (fun x => fst x = 0 <-> Forall (fun d => other_tag d (fst (snd x))) pre) l.
Lemma counted_left pre d l : max_pos (head d) -> forall n, counted pre l -> counted (pre ++ [d]) (left_by d n l).
Proof.
  intros Hm. unfold counted. induction l as [|[al it] l IH]; intros n H; [constructor|]. inversion H as [|? ? H1 H2]; subst. cbn [fst snd] in H1. cbn [left_by].
  destruct (ti_match (h_ti (head d)) (fst it)) eqn:Et.
  - destruct n; [|apply IH; exact H2]. constructor; [|apply IH; exact H2]. cbn [fst snd]. rewrite Forall_app. split.
    + intros E. unfold most, max_pos in *. destruct (h_multi (head d)) as [[mx mand]|]; lia.
    + intros [_ A]. inversion A; subst. unfold other_tag in *. congruence.
  - constructor; [|apply IH; exact H2]. cbn [fst snd]. rewrite Forall_app, H1. split; [intros A; split; [exact A|constructor; [exact Et|constructor]]|intros [A _]; exact A].
Qed.

Lemma fold_fills c r0 : forall ies pre idx l out, idx + lenN ies <= seen_max -> maxes_pos ies -> counted pre l ->
  (fold_from c (map entry_of ies) idx r0 (map (fun _ => []) ies) l = Ok out /\ Forall2 (fun (d : coding V) s => low_of (head d) <= lenN s) ies out <->
   fills_unordered c r0 (pre ++ ies) ies (map snd l) out).
Proof.
  induction ies as [|d ies IH]; intros pre idx l out Hi Hm Hc; cbn [map].
  - rewrite app_nil_r. split.
    + intros [H F]. inversion F; subst. constructor. rewrite Forall_map. clear F. induction Hc as [|[al it] l H1 H2 IHl]; [constructor|]. cbn [fold_from place] in H. cbn [fst snd] in *.
      destruct (N.eqb_spec al 0) as [E|E]; cbn [bind] in H; [|discriminate]. constructor; [apply H1, E|apply IHl, H].
    + intros H. inversion H as [? F|]; subst. split; [|constructor]. clear H. rewrite Forall_map in F. induction Hc as [|[al it] l H1 H2 IHl]; [reflexivity|].
      inversion F as [|? ? F1 F2]; subst. cbn [fold_from place]. cbn [fst snd] in *. rewrite (proj2 H1 F1). cbn [N.eqb bind]. apply IHl, F2.
  - inversion Hm as [|? ? M1 M2]; subst. rewrite lenN_cons in Hi.
    assert (Hpre : pre ++ d :: ies = (pre ++ [d]) ++ ies) by (rewrite <- app_assoc; reflexivity). rewrite Hpre.
    pose proof (IH (pre ++ [d]) (idx + 1) (left_by d (N.to_nat (cap_of (head d))) l)) as IH'. split.
    + intros [H F]. apply (fold_entry c d (map entry_of ies) idx r0 ltac:(lia)) in H. rewrite lenN_nil, N.sub_0_r in H. cbn [app] in H.
      destruct H as (vs & out' & -> & A & B). inversion F as [|? ? ? ? F1 F2]; subst. apply FU_entry; [exact F1|exact A|]. rewrite <- left_by_items.
      apply IH'; [lia|exact M2|apply counted_left; assumption|]. split; assumption.
    + intros H. inversion H as [|? ? ? s slots L G R]; subst. rewrite <- left_by_items in R. apply IH' in R; [|lia|exact M2|apply counted_left; assumption].
      destruct R as [R1 R2]. split; [|constructor; assumption]. apply (fold_entry c d (map entry_of ies) idx r0 ltac:(lia)). rewrite lenN_nil, N.sub_0_r. cbn [app].
      exists s, slots. split; [reflexivity|]. split; [exact G|exact R1].
Qed.

Lemma fills_length c r0 all ies items out : fills_unordered (V := V) c r0 all ies items out -> length out = length ies.
Proof. intros H. induction H as [items F|d ies items s slots L G R IH]; [reflexivity|]. cbn [length]. rewrite IH. reflexivity. Qed.

Theorem decode_unordered_any Tail c (ies : list (coding V)) d rest slots :
  cfg_ok c -> tail_closed Tail -> Tail rest ->
  Forall (all_leaves (leaf_local Tail)) ies -> Forall (all_cfgs cfg_ok) ies -> maxes_pos ies -> small_table ies ->
  (gtlvs_decode c false (Some ies) (d ++ rest) (lenN d) = Ok slots <->
   exists items, reads c d items Proper /\ fills_unordered c rest ies ies items slots).
Proof.
  intros Hok Htc Hr Hl Hc Hmx Hsm. cbn [gtlvs_decode decode_entries].
  assert (HL : Forall (entry_local Tail c false) (map entry_of ies)).
  { apply Forall_map. rewrite Forall_forall in *. intros x Hx. apply dec_coding_local; auto. }
  assert (Q : (exists items, reads c d items Proper /\ fills_unordered c rest ies ies items slots) <-> (exists items, parse c d (lenN d) = Ok items /\ fills_unordered c rest ies ies items slots)).
  { split; intros (items & A & B); exists items; (split; [apply reads_parse; assumption|exact B]). }
  rewrite Q. clear Q. rewrite (decode_unordered_items Tail c _ rest) by assumption. rewrite parse_parsed by assumption.
  destruct (parsed c d) as [items st].
  assert (Hsm' : lenN (map entry_of ies) <= seen_max) by (unfold small_table, seen_max, lenN in *; rewrite map_length; exact Hsm).
  assert (Hsm2 : 0 + lenN ies <= seen_max) by (unfold lenN in *; rewrite map_length in Hsm'; lia).
  assert (Hct : counted [] (map (fun it => (0, it)) items)) by (unfold counted; rewrite Forall_map; apply Forall_forall; intros it _; cbn [fst]; split; [constructor|reflexivity]).
  assert (Hit : map snd (map (fun it : item => (0, it)) items) = items) by (rewrite map_map; cbn [snd]; apply map_id).
  pose proof (fun out => fold_fills c rest ies [] 0 (map (fun it => (0, it)) items) out Hsm2 Hmx Hct) as FF. cbn [app] in FF. rewrite Hit in FF.
  unfold init_slots. rewrite map_map. rewrite fold_from_start. split.
  - intros H. apply bind_ok in H as (s & Hs & H). apply bind_ok in H as (u & Hu & H). apply bind_ok in H as ([] & Hm & H). inversion H; subst s.
    exists items. rewrite Hu. split; [reflexivity|]. apply FF. split; [exact Hs|].
    apply check_mand_ok in Hm; [|exact Hsm'|]; [rewrite Forall2_map_l in Hm; exact Hm|].
    assert (G : forall es idx ti m len al s s', length s = length es -> place c es idx al s ti m len = Ok s' -> length s' = length es).
    { clear. induction es as [|e es IH]; intros idx ti m len al s s' Hl H; destruct s as [|x s]; try discriminate; cbn [place] in H.
      - destruct (al =? 0); inversion H; reflexivity.
      - cbn [length] in *. dif_in H E1. { apply bind_ok in H as (r & Hr & H). inversion H; subst. cbn [length]. f_equal. eapply IH; [|exact Hr]. lia. }
        dif_in H E2. { apply bind_ok in H as (r & Hr & H). inversion H; subst. cbn [length]. f_equal. eapply IH; [|exact Hr]. lia. }
        dif_in H E3; [discriminate|]. dif_in H E4. { apply bind_ok in H as (r & Hr & H). inversion H; subst. cbn [length]. f_equal. eapply IH; [|exact Hr]. lia. }
        apply bind_ok in H as (v & Hv & H). dif_in H E5; inversion H; subst. cbn [length]. lia. }
    assert (G2 : forall l s s', length s = length (map entry_of ies) -> fold_from c (map entry_of ies) 0 rest s l = Ok s' -> length s' = length (map entry_of ies)).
    { induction l as [|[al it] l IHl]; intros s s' Hl2 H2; cbn [fold_from] in H2; [inversion H2; subst; exact Hl2|]. apply bind_ok in H2 as (r & Hr2 & H2). eapply IHl; [|exact H2]. eapply G; eassumption. }
    eapply G2; [|exact Hs]. rewrite !map_length. reflexivity.
  - intros (items' & Hp & HF). destruct st as [u|e|u]; try discriminate. cbn in Hp. inversion Hp; subst items'. pose proof (fills_length _ _ _ _ _ _ HF) as Hlen. apply FF in HF.
    destruct HF as [H1 H2]. rewrite H1. cbn [bind].
    assert (Hm : check_mand 0 (map entry_of ies) slots = Ok tt) by (apply check_mand_ok; [exact Hsm'|rewrite map_length; exact Hlen|rewrite Forall2_map_l; exact H2]).
    rewrite Hm. reflexivity.
Qed.
End UR.
