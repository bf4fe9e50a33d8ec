(* OrdMandProofs.v -- C16: what ordered decoding enforces *)
From Verif Require Import Base BaseProofs GtlvModel GtlvSpec GtlvProofs DecEncModel DecEncSpec DecEncProofs DecOrdProofs DecCharProofs.

Section OM.
Context {V : Type}.
Implicit Types (es : list (entry V)) (slots : list (slot V)) (cd : coding V) (c : cfg).



Lemma jump_nomatch c es g : Forall (fun e => ti_match (h_ti (e_h e)) (ld_ti g) = false) es ->
  forall fuel slots slots', ord_loop fuel MJump c es g slots <> Ok slots'.
Proof.
  intros H. induction H as [|e es He H IH]; intros fuel slots slots'; destruct fuel as [|f]; cbn [ord_loop]; try discriminate.
  destruct slots as [|s slots]; [discriminate|]. rewrite ti_match_sym in He. rewrite He.
  destruct (ord_loop f MJump c es g slots) eqn:E; cbn [bind]; try discriminate. exfalso. eapply IH, E.
Qed.

Lemma load_next_val c g g' : load_next c g = (g', Ok tt) -> load_peek_tag c g <> Err ENOENT -> load_peek_tag c g = Ok (ld_ti g').
Proof.
  intros H Hp. pose proof (peek_next c g) as Hk. rewrite H in Hk. destruct (ld_val g'); [exact Hk|congruence].
Qed.

Lemma by_tag_ti c g ti g' : load_next_by_tag_inst c g ti = (g', Ok tt) -> ti_match (ld_ti g') ti = true.
Proof.
  unfold load_next_by_tag_inst. pose proof (by_tag_loop_first c ti (budget (ld_mem g) (ld_srclen g)) g) as H.
  destruct (by_tag_loop _ c g ti); intros E; inversion E; subst. destruct H as (g1 & v & _ & _ & _ & H). exact H.
Qed.

Lemma ord_counts c : forall fuel mode es g slots slots',
  es_distinct es -> Forall (fun e => max_pos (e_h e) /\ head_plain (e_h e)) es ->
  ord_loop fuel mode c es g slots = Ok slots' ->
  match mode with
  | MOuter => empty_slots slots -> length slots = length es -> Forall2 (fun e s => count_ok (e_h e) (lenN s)) es slots'
  | MInner => match es, slots with
     | e :: es', s :: slots0 => empty_slots slots0 -> length slots0 = length es' ->
         lenN s <= cap_of (e_h e) -> ti_match (ld_ti g) (h_ti (e_h e)) = true ->
         Forall2 (fun e s => count_ok (e_h e) (lenN s)) es slots'
     | _, _ => True end
  | MJump => True
  end.
Proof.
  induction fuel as [|f IH]; intros mode es g slots slots' Hd Hp H; [discriminate|]. cbn [ord_loop] in H.
  destruct es as [|e es].
  { destruct mode; auto; inversion H; subst; intros _ Hl; destruct slots'; try discriminate; constructor. }
  destruct slots as [|s slots].
  { destruct mode; auto; intros _ Hl; try discriminate. }
  destruct Hd as [Hd1 Hd2]. inversion Hp as [|? ? [Hp1 Hp1'] Hp2]; subst.
  destruct mode; [| |exact I].
  - intros He Hl. inversion He as [|? ? Hs He']; subst. cbn in Hl.
    destruct (load_next_by_tag_inst c g (h_ti (e_h e))) as [g' [[]|er|u]] eqn:Eb; try discriminate.
    + pose proof (IH MInner (e :: es) g' ([] :: slots) slots' (conj Hd1 Hd2) Hp H) as HI. cbv iota beta in HI.
      apply HI; [assumption|lia|rewrite lenN_nil; lia|]. eapply by_tag_ti, Eb.
    + destruct er; try discriminate. dif_in H E; [discriminate|].
      apply bind_ok in H as (r & Hr & H). inversion H; subst. constructor.
      * apply count_ok_cap. replace (lenN (if h_pres (e_h e) then [] else @nil (val V))) with 0 by (destruct (h_pres (e_h e)); reflexivity).
        split; [lia|]. unfold low_of. destruct (h_pres (e_h e)); [lia|]. cbn [negb andb] in E. change (lenN (@nil (val V))) with 0 in E.
        destruct (h_multi (e_h e)) as [[mx mand]|]; [lia|discriminate].
      * apply (IH MOuter es g slots r Hd2 Hp2 Hr); [assumption|lia].
  - intros He Hl Hcap Hti.
    dif_in H E.
    { exfalso. apply bind_ok in H as (r & Hr & H). eapply jump_nomatch; [|exact Hr].
      eapply distinct_others; [exact Hd1|]. rewrite ti_match_sym. exact Hti. }
    apply bind_ok in H as (v & Hv & H).
    assert (Hdone : forall s' : slot V, s' <> [] -> lenN s' <= cap_of (e_h e) -> forall r, ord_loop f MOuter c es g slots = Ok r ->
        Forall2 (fun e s => count_ok (e_h e) (lenN s)) (e :: es) (s' :: r)).
    { intros s' Hne Hc r Hr. constructor; [|apply (IH MOuter es g slots r Hd2 Hp2 Hr); [assumption|lia]].
      apply count_ok_cap. split; [exact Hc|]. assert (1 <= lenN s') by (destruct s'; [congruence|rewrite lenN_cons; lia]).
      unfold low_of. destruct (h_pres (e_h e)); [lia|]. unfold head_plain in Hp1'. destruct (h_multi (e_h e)) as [[mx mand]|]; lia. }
    destruct (h_multi (e_h e)) as [[mx mand]|] eqn:Em.
    + assert (Hc1 : lenN (s ++ [v]) <= cap_of (e_h e)).
      { unfold cap_of. rewrite Em. unfold head_plain in Hp1'. rewrite Em in Hp1'. destruct Hp1' as [-> _]. rewrite lenN_app, lenN_cons, lenN_nil. lia. }
      assert (Hne : s ++ [v] <> []) by (destruct s; discriminate).
      destruct (load_peek_tag c g) as [peek|er|u] eqn:Epk; [|apply bind_ok in H as (r & Hr & H); inversion H; subst; auto|discriminate].
      dif_in H E2; [apply bind_ok in H as (r & Hr & H); inversion H; subst; auto|].
      destruct (load_next c g) as [g' [[]|er|u]] eqn:En; try discriminate.
      assert (Hpk : load_peek_tag c g = Ok (ld_ti g')) by (apply load_next_val; [exact En|congruence]).
      assert (peek = ld_ti g') by congruence. subst peek.
      pose proof (IH MInner (e :: es) g' ((s ++ [v]) :: slots) slots' (conj Hd1 Hd2) Hp H) as HI. cbv iota beta in HI.
      apply HI; auto. apply negb_false_iff in E2. eapply ti_match_trans; eassumption.
    + apply bind_ok in H as (r & Hr & H). inversion H; subst. apply Hdone; [discriminate| |exact Hr].
      unfold cap_of. rewrite Em. change (lenN [v]) with 1. lia.
Qed.

(* values stored come from the entries' decoders *)
Lemma ord_vals (P : coding V -> val V -> Prop) c : forall fuel mode (ies : list (coding V)) g slots slots',
  Forall (fun d => forall m len v, dec_coding d c true m len = Ok v -> P d v) ies ->
  length slots = length ies ->
  ord_loop fuel mode c (map entry_of ies) g slots = Ok slots' ->
  Forall2 (fun d s => Forall (P d) s) ies slots -> Forall2 (fun d s => Forall (P d) s) ies slots'.
Proof.
  induction fuel as [|f IH]; intros mode ies g slots slots' Hd Hl H HF; [discriminate|].
  destruct ies as [|d ies]; destruct slots as [|s slots]; try discriminate; cbn [map ord_loop] in H.
  { destruct mode; inversion H; subst; constructor. }
  inversion Hd as [|? ? Hd1 Hd2]; subst. inversion HF as [|? ? ? ? HF1 HF2]; subst. cbn in Hl.
  cbn [e_h e_dec entry_of] in H.
  assert (Hrec : forall mode' s' X, Forall (P d) s' -> (r <- ord_loop f mode' c (map entry_of ies) g slots;; Ok (s' :: r)) = Ok X ->
     Forall2 (fun d s => Forall (P d) s) (d :: ies) X).
  { intros mode' s' X Hs' HX. apply bind_ok in HX as (r & Hr & HX). inversion HX; subst. constructor; [exact Hs'|].
    eapply IH; [exact Hd2| |exact Hr|exact HF2]. lia. }
  assert (Hdec : (v <- dec_coding d c true (match ld_val g with Some v => dropN v (ld_mem g) | None => [] end) (ld_len g) ;;
     match h_multi (head d) with
     | Some _ => match load_peek_tag c g with
       | Ok peek => if negb (ti_match peek (ld_ti g)) then r <- ord_loop f MOuter c (map entry_of ies) g slots;; Ok ((match h_multi (head d) with Some _ => s ++ [v] | None => [v] end) :: r)
           else match load_next c g with
                | (g0, Ok _) => ord_loop f MInner c (entry_of d :: map entry_of ies) g0 ((match h_multi (head d) with Some _ => s ++ [v] | None => [v] end) :: slots)
                | (_, Err e0) => Err e0 | (_, UB u) => UB u end
       | Err _ => r <- ord_loop f MOuter c (map entry_of ies) g slots;; Ok ((match h_multi (head d) with Some _ => s ++ [v] | None => [v] end) :: r)
       | UB u => UB u end
     | None => r <- ord_loop f MOuter c (map entry_of ies) g slots;; Ok ((match h_multi (head d) with Some _ => s ++ [v] | None => [v] end) :: r) end) = Ok slots' ->
     Forall2 (fun d s => Forall (P d) s) (d :: ies) slots').
  { intros HX. apply bind_ok in HX as (v & Hv & HX).
    assert (Hs' : Forall (P d) (match h_multi (head d) with Some _ => s ++ [v] | None => [v] end)).
    { destruct (h_multi (head d)); [apply Forall_app; split; [assumption|]|]; constructor; eauto. }
    destruct (h_multi (head d)) as [[mx mand]|]; [|eapply Hrec; eassumption].
    destruct (load_peek_tag c g) as [peek|er|u]; [|eapply Hrec; eassumption|discriminate].
    dif_in HX E2; [eapply Hrec; eassumption|].
    destruct (load_next c g) as [g' [[]|er|u]]; try discriminate.
    eapply (IH MInner (d :: ies)); [exact Hd| |exact HX|constructor; assumption]. cbn; lia. }
  destruct mode.
  - destruct (load_next_by_tag_inst c g (h_ti (head d))) as [g' [[]|er|u]]; try discriminate.
    + eapply (IH MInner (d :: ies)); [exact Hd| |exact H|constructor; assumption]. cbn; lia.
    + destruct er; try discriminate. dif_in H E; [discriminate|]. eapply Hrec; [|exact H]. destruct (h_pres (head d)); [constructor|exact HF1].
  - destruct (match h_multi (head d) with Some (mx, _) => mx <=? lenN s | None => false end); [eapply Hrec; eassumption|].
    apply Hdec, H.
  - destruct (ti_match (ld_ti g) (h_ti (head d))); [|eapply Hrec; eassumption].
    destruct (match h_multi (head d) with Some (mx, _) => mx <=? lenN s | None => false end); [discriminate|].
    apply Hdec, H.
Qed.


Lemma entries_struct_ok_any c o (ies : list (coding V)) m len slots : table_plain ies ->
  Forall (fun d => forall o m len v, dec_coding d c o m len = Ok v -> counts_ok d v) ies ->
  decode_entries c o (map entry_of ies) m len = Ok slots -> struct_ok ies slots.
Proof.
  intros (Ht1 & Ht2 & Ht3 & Ht4) Hd H. destruct o; cbn [decode_entries] in H.
  - unfold decode_ordered in H. unfold struct_ok. apply Forall2_and.
    + apply (Forall2_map_l entry_of (fun e s => count_ok (e_h e) (lenN s))).
      refine (ord_counts c _ MOuter _ _ _ _ (distinct_es _ Ht1) _ H _ _); [|apply empty_init|apply map_length].
      apply Forall_map. unfold maxes_pos in Ht2. rewrite Forall_forall in *. intros d Hx. split; [apply Ht2|apply Ht4]; exact Hx.
    + eapply (ord_vals counts_ok c _ MOuter ies); [| |exact H|].
      * eapply Forall_impl; [|exact Hd]. cbn. eauto.
      * rewrite !map_length. reflexivity.
      * clear. induction ies; constructor; auto.
  - eapply entries_struct_ok; [exact Ht3| |exact H]. eapply Forall_impl; [|exact Hd]. cbn. eauto.
Qed.

Lemma dec_coding_counts_any : forall cd, tables table_plain cd ->
  forall c o m len v, dec_coding cd c o m len = Ok v -> counts_ok cd v.
Proof.
  induction cd as [h l|h nc o ies IH] using coding_ind'; intros Ht c o' m len v H.
  - cbn in H. destruct (lf_dec l); [|discriminate]. apply bind_ok in H as (x & _ & H). inversion H. exact I.
  - cbn [tables] in *. destruct Ht as [Ht1 Ht2]. rewrite fold_right_and_Forall in Ht2.
    cbn in H. change (map (fun d => mkEntry (head d) (dec_coding d)) ies) with (map entry_of ies) in H.
    apply bind_ok in H as (slots & Hs & H). inversion H; subst. apply counts_ok_nest.
    eapply entries_struct_ok_any; [exact Ht1| |exact Hs].
    rewrite Forall_forall in *. intros d Hd o0 m0 len0 v0 H0. eapply IH; eauto.
Qed.

Theorem gtlvs_decode_counts_any c o ies m len slots : all_tables table_plain ies ->
  gtlvs_decode c o (Some ies) m len = Ok slots -> struct_ok ies slots.
Proof.
  intros [Ht1 Ht2] H. cbn [gtlvs_decode] in H. eapply entries_struct_ok_any; [exact Ht1| |exact H].
  rewrite Forall_forall in *. intros d Hd o0 m0 len0 v0 H0. eapply dec_coding_counts_any; eauto.
Qed.

End OM.
