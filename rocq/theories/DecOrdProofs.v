(* DecOrdProofs.v -- ordered decoding: locality and memory safety; both for whole tables (C13) *)
From Verif Require Import Base BaseProofs GtlvModel GtlvSpec GtlvProofs DecEncModel DecEncSpec DecEncProofs.

Section Ord.
Context {V : Type}.
Implicit Types (es : list (entry V)) (slots : list (slot V)) (cd : coding V) (c : cfg).

(* two loaders at the same place of the same data [d], with different memory behind it *)
Record sim (d rest rest' : list N) (g g' : load) : Prop := {
  sim_mem : ld_mem g = d ++ rest;
  sim_mem' : ld_mem g' = d ++ rest';
  sim_len : ld_srclen g = lenN d;
  sim_len' : ld_srclen g' = lenN d;
  sim_ti : ld_ti g' = ld_ti g;
  sim_l : ld_len g' = ld_len g;
  sim_val : ld_val g' = ld_val g;
  sim_pos : ld_pos g <= lenN d
}.

Lemma sim_pos' d rest rest' g g' : sim d rest rest' g g' -> ld_pos g' = ld_pos g.
Proof. intros [? ? ? ? ? Hl Hv ?]. unfold ld_pos. rewrite Hv, Hl. reflexivity. Qed.

Lemma load_next_sim c d rest rest' g g' : cfg_ok c -> sim d rest rest' g g' ->
  match load_next c g, load_next c g' with
  | (h, Ok _), (h', Ok _) => sim d rest rest' h h'
  | (_, Err e), (_, Err e') => e = e'
  | (_, UB u), (_, UB u') => u = u'
  | _, _ => False
  end.
Proof.
  intros Hok Hs. pose proof (sim_pos' _ _ _ _ _ Hs) as Hp'. pose proof (sim_pos _ _ _ _ _ Hs) as Hp.
  rewrite !load_next_rem by (rewrite ?Hp', ?(sim_len _ _ _ _ _ Hs), ?(sim_len' _ _ _ _ _ Hs); exact Hp).
  rewrite Hp', (sim_len _ _ _ _ _ Hs), (sim_len' _ _ _ _ _ Hs), (sim_mem _ _ _ _ _ Hs), (sim_mem' _ _ _ _ _ Hs). cbv zeta.
  destruct (lenN d - ld_pos g =? 0) eqn:E0.
  { destruct Hs. split; cbn; auto. unfold ld_pos; cbn. lia. }
  destruct (lenN d - ld_pos g <? cfg_min c) eqn:E1; [reflexivity|].
  rewrite !dropN_app_le by exact Hp.
  rewrite !(ok_local c Hok) by (rewrite ?lenN_dropN; lia).
  destruct (cfg_load c (dropN (ld_pos g) d) (lenN d - ld_pos g)) as [[[ti len] h]|e|u]; try reflexivity.
  destruct (lenN d - ld_pos g <? h + len) eqn:E2; [reflexivity|].
  split; cbn; auto. unfold ld_pos; cbn. fold (ld_pos g). lia.
Qed.

Lemma peek_sim c d rest rest' g g' : cfg_ok c -> sim d rest rest' g g' -> load_peek_tag c g = load_peek_tag c g'.
Proof.
  intros Hok Hs. unfold load_peek_tag, next_tl_valid.
  rewrite (sim_val _ _ _ _ _ Hs), (sim_l _ _ _ _ _ Hs), (sim_len _ _ _ _ _ Hs), (sim_len' _ _ _ _ _ Hs).
  change (match ld_val g with None => 0 | Some v => v + ld_len g end) with (ld_pos g). cbv zeta.
  pose proof (sim_pos _ _ _ _ _ Hs) as Hp.
  dif E0; [reflexivity|]. dif E1; [reflexivity|]. dif E2; [reflexivity|].
  rewrite (sim_mem _ _ _ _ _ Hs), (sim_mem' _ _ _ _ _ Hs), !dropN_app_le by exact Hp.
  rewrite !(ok_local c Hok) by (rewrite ?lenN_dropN; lia). reflexivity.
Qed.

Lemma by_tag_loop_sim c d rest rest' ti : cfg_ok c -> forall fuel g g', sim d rest rest' g g' ->
  match by_tag_loop fuel c g ti, by_tag_loop fuel c g' ti with
  | Ok h, Ok h' => sim d rest rest' h h'
  | Err e, Err e' => e = e'
  | UB u, UB u' => u = u'
  | _, _ => False
  end.
Proof.
  intros Hok. induction fuel as [|f IH]; intros g g' Hs; cbn [by_tag_loop]; [reflexivity|].
  pose proof (load_next_sim c d rest rest' g g' Hok Hs) as Hn.
  destruct (load_next c g) as [h [[]|e|u]], (load_next c g') as [h' [[]|e'|u']]; try contradiction; auto.
  rewrite (sim_val _ _ _ _ _ Hn), (sim_ti _ _ _ _ _ Hn).
  destruct (ld_val h) as [v|]; [|reflexivity]. destruct (ti_match (ld_ti h) ti); [exact Hn|]. apply IH, Hn.
Qed.

Lemma by_tag_sim c d rest rest' ti g g' : cfg_ok c -> sim d rest rest' g g' ->
  match load_next_by_tag_inst c g ti, load_next_by_tag_inst c g' ti with
  | (h, Ok _), (h', Ok _) => sim d rest rest' h h'
  | (_, Err e), (_, Err e') => e = e'
  | (_, UB u), (_, UB u') => u = u'
  | _, _ => False
  end.
Proof.
  intros Hok Hs. unfold load_next_by_tag_inst.
  rewrite (sim_mem _ _ _ _ _ Hs), (sim_mem' _ _ _ _ _ Hs), (sim_len _ _ _ _ _ Hs), (sim_len' _ _ _ _ _ Hs), !budget_app.
  pose proof (by_tag_loop_sim c d rest rest' ti Hok (S (length d)) g g' Hs) as H.
  destruct (by_tag_loop _ c g ti), (by_tag_loop _ c g' ti); try contradiction; auto.
Qed.

Lemma e_dec_sim Tail c (e : entry V) d rest rest' g g' :
  tail_closed Tail -> entry_local Tail c true e -> Tail rest -> Tail rest' -> sim d rest rest' g g' ->
  e_dec e c true (match ld_val g with Some v => dropN v (ld_mem g) | None => [] end) (ld_len g)
  = e_dec e c true (match ld_val g' with Some v => dropN v (ld_mem g') | None => [] end) (ld_len g').
Proof.
  intros Htc He Hr Hr' Hs. rewrite (sim_val _ _ _ _ _ Hs), (sim_l _ _ _ _ _ Hs), (sim_mem _ _ _ _ _ Hs), (sim_mem' _ _ _ _ _ Hs).
  pose proof (sim_pos _ _ _ _ _ Hs) as Hp. unfold ld_pos in Hp. destruct (ld_val g) as [v|]; [|reflexivity].
  rewrite !dropN_app_le by lia.
  assert (Hl : lenN (takeN (ld_len g) (dropN v d)) = ld_len g) by (apply lenN_takeN; rewrite lenN_dropN; lia).
  rewrite <- (takeN_dropN (ld_len g) (dropN v d)), <- !app_assoc. revert Hl.
  generalize (takeN (ld_len g) (dropN v d)) (dropN (ld_len g) (dropN v d)). intros a b <-.
  apply He; apply Htc; assumption.
Qed.

Lemma ord_loop_sim Tail c d rest rest' : cfg_ok c -> tail_closed Tail -> Tail rest -> Tail rest' ->
  forall fuel mode es g g' slots, Forall (entry_local Tail c true) es -> sim d rest rest' g g' ->
  ord_loop fuel mode c es g slots = ord_loop fuel mode c es g' slots.
Proof.
  intros Hok Htc Hr Hr'. induction fuel as [|f IH]; intros mode es g g' slots Hloc Hs; [reflexivity|].
  cbn [ord_loop]. destruct es as [|e es]; [destruct mode; reflexivity|]. destruct slots as [|s slots]; [destruct mode; reflexivity|].
  inversion Hloc as [|? ? He Hes]; subst.
  assert (HD : forall k (X Y : res (list (slot V))), (k = true -> X = Y) -> (if k then X else UB OobWrite) = (if k then Y else UB OobWrite))
    by (intros [] X Y H; auto).
  rewrite (e_dec_sim Tail c e d rest rest' g g' Htc He Hr Hr' Hs).
  rewrite <- (peek_sim c d rest rest' g g' Hok Hs), (sim_ti _ _ _ _ _ Hs).
  pose proof (load_next_sim c d rest rest' g g' Hok Hs) as Hn.
  pose proof (by_tag_sim c d rest rest' (h_ti (e_h e)) g g' Hok Hs) as Hb.
  assert (H1 : forall m, ord_loop f m c es g slots = ord_loop f m c es g' slots) by (intros; apply IH; assumption).
  assert (HH : forall v, match h_multi (e_h e) with
     | Some _ => match load_peek_tag c g with
       | Ok peek => if negb (ti_match peek (ld_ti g)) then r <- ord_loop f MOuter c es g slots;; Ok ((match h_multi (e_h e) with Some _ => s ++ [v] | None => [v] end) :: r)
           else match load_next c g with
                | (g0, Ok _) => ord_loop f MInner c (e :: es) g0 ((match h_multi (e_h e) with Some _ => s ++ [v] | None => [v] end) :: slots)
                | (_, Err e0) => Err e0 | (_, UB u) => UB u end
       | Err _ => r <- ord_loop f MOuter c es g slots;; Ok ((match h_multi (e_h e) with Some _ => s ++ [v] | None => [v] end) :: r)
       | UB u => UB u end
     | None => r <- ord_loop f MOuter c es g slots;; Ok ((match h_multi (e_h e) with Some _ => s ++ [v] | None => [v] end) :: r) end
   = match h_multi (e_h e) with
     | Some _ => match load_peek_tag c g with
       | Ok peek => if negb (ti_match peek (ld_ti g)) then r <- ord_loop f MOuter c es g' slots;; Ok ((match h_multi (e_h e) with Some _ => s ++ [v] | None => [v] end) :: r)
           else match load_next c g' with
                | (g0, Ok _) => ord_loop f MInner c (e :: es) g0 ((match h_multi (e_h e) with Some _ => s ++ [v] | None => [v] end) :: slots)
                | (_, Err e0) => Err e0 | (_, UB u) => UB u end
       | Err _ => r <- ord_loop f MOuter c es g' slots;; Ok ((match h_multi (e_h e) with Some _ => s ++ [v] | None => [v] end) :: r)
       | UB u => UB u end
     | None => r <- ord_loop f MOuter c es g' slots;; Ok ((match h_multi (e_h e) with Some _ => s ++ [v] | None => [v] end) :: r) end).
  { intros v. rewrite H1. destruct (h_multi (e_h e)); [|reflexivity]. destruct (load_peek_tag c g); try reflexivity.
    destruct (negb _); [reflexivity|].
    destruct (load_next c g) as [h [[]|er|u]], (load_next c g') as [h' [[]|er'|u']]; try contradiction; try congruence.
    apply IH; assumption. }
  destruct mode.
  - destruct (load_next_by_tag_inst c g _) as [h [[]|er|u]], (load_next_by_tag_inst c g' _) as [h' [[]|er'|u']];
      try contradiction; try congruence; [apply IH; assumption|]. subst er'. destruct er; try reflexivity. rewrite H1. reflexivity.
  - dif E; [rewrite H1; reflexivity|]. apply bind_ext. intros v _. apply HH.
  - dif E; [|rewrite H1; reflexivity]. dif E2; [reflexivity|]. apply bind_ext. intros v _. apply HH.
Qed.

Lemma decode_ordered_local Tail c es d rest rest' :
  cfg_ok c -> tail_closed Tail -> Tail rest -> Tail rest' -> Forall (entry_local Tail c true) es ->
  decode_ordered c es (d ++ rest) (lenN d) = decode_ordered c es (d ++ rest') (lenN d).
Proof.
  intros Hok Htc Hr Hr' Hloc. unfold decode_ordered. rewrite !budget_app.
  apply (ord_loop_sim Tail c d rest rest'); auto. split; try reflexivity. unfold ld_pos; cbn. lia.
Qed.

(* ---------------------------------------------------------------- safety *)

Definition empty_slots slots : Prop := Forall (fun s => s = []) slots.

Lemma e_dec_safe Tail c (e : entry V) d rest g :
  tail_closed Tail -> entry_safe Tail c true e -> Tail rest -> ld_mem g = d ++ rest -> ld_srclen g = lenN d ->
  ld_pos g <= lenN d -> ld_val g <> None ->
  is_ub (e_dec e c true (match ld_val g with Some v => dropN v (ld_mem g) | None => [] end) (ld_len g)) = false.
Proof.
  intros Htc He Hr Hm Hl Hp Hv. unfold ld_pos in Hp. destruct (ld_val g) as [v|]; [|congruence]. rewrite Hm.
  rewrite dropN_app_le by lia.
  assert (Hx : lenN (takeN (ld_len g) (dropN v d)) = ld_len g) by (apply lenN_takeN; rewrite lenN_dropN; lia).
  rewrite <- (takeN_dropN (ld_len g) (dropN v d)), <- !app_assoc. revert Hx.
  generalize (takeN (ld_len g) (dropN v d)) (dropN (ld_len g) (dropN v d)). intros a b <-.
  apply He. apply Htc. assumption.
Qed.

Lemma peek_safe c g : cfg_ok c -> linv g -> is_ub (load_peek_tag c g) = false.
Proof.
  intros Hok [Hp Hm]. unfold load_peek_tag, next_tl_valid.
  change (match ld_val g with None => 0 | Some v => v + ld_len g end) with (ld_pos g). cbv zeta.
  dif E0; [reflexivity|]. dif E1; [reflexivity|]. dif E2; [reflexivity|].
  pose proof (ok_load c Hok (dropN (ld_pos g) (ld_mem g)) (ld_srclen g - ld_pos g)
                ltac:(rewrite lenN_dropN; lia) ltac:(lia)) as Hld.
  destruct (cfg_load c _ _) as [[[ti len] h]|e|u]; try reflexivity. contradiction.
Qed.

Lemma ord_loop_safe Tail c d rest : cfg_ok c -> tail_closed Tail -> Tail rest ->
  forall fuel mode es g slots,
  Forall (entry_safe Tail c true) es -> Forall (fun e => max_pos (e_h e)) es ->
  ld_mem g = d ++ rest -> ld_srclen g = lenN d -> ld_pos g <= lenN d ->
  (length es + N.to_nat (lenN d - ld_pos g) < fuel)%nat ->
  match mode with MOuter => empty_slots slots | MInner => empty_slots (tl slots) /\ ld_val g <> None
                | MJump => empty_slots slots /\ ld_val g <> None end ->
  is_ub (ord_loop fuel mode c es g slots) = false.
Proof.
  intros Hok Htc Hr. pose proof (ok_min c Hok) as Hmin.
  induction fuel as [|f IH]; intros mode es g slots Hsafe Hmax Hm Hl Hp Hf Hmode; [lia|].
  cbn [ord_loop]. destruct es as [|e es]; [destruct mode; reflexivity|]. destruct slots as [|s slots]; [destruct mode; reflexivity|].
  inversion Hsafe as [|? ? He Hes]; subst. inversion Hmax as [|? ? Hme Hmes]; subst. cbn [length] in Hf.
  assert (Hi : linv g) by (split; rewrite ?Hl, ?Hm, ?lenN_app; lia).
  assert (Hou : empty_slots slots -> forall s', is_ub (r <- ord_loop f MOuter c es g slots;; Ok (s' :: r)) = false).
  { intros Hes0 s'. apply is_ub_bind; [|reflexivity]. apply IH; auto. lia. }
  assert (Hju : empty_slots slots -> ld_val g <> None -> forall s', is_ub (r <- ord_loop f MJump c es g slots;; Ok (s' :: r)) = false).
  { intros Hes0 Hv s'. apply is_ub_bind; [|reflexivity]. apply IH; auto. lia. }
  assert (HH : empty_slots slots -> ld_val g <> None -> is_ub (
     v <- e_dec e c true (match ld_val g with Some v => dropN v (ld_mem g) | None => [] end) (ld_len g) ;;
     match h_multi (e_h e) with
     | Some _ => match load_peek_tag c g with
       | Ok peek => if negb (ti_match peek (ld_ti g)) then r <- ord_loop f MOuter c es g slots;; Ok ((match h_multi (e_h e) with Some _ => s ++ [v] | None => [v] end) :: r)
           else match load_next c g with
                | (g0, Ok _) => ord_loop f MInner c (e :: es) g0 ((match h_multi (e_h e) with Some _ => s ++ [v] | None => [v] end) :: slots)
                | (_, Err e0) => Err e0 | (_, UB u) => UB u end
       | Err _ => r <- ord_loop f MOuter c es g slots;; Ok ((match h_multi (e_h e) with Some _ => s ++ [v] | None => [v] end) :: r)
       | UB u => UB u end
     | None => r <- ord_loop f MOuter c es g slots;; Ok ((match h_multi (e_h e) with Some _ => s ++ [v] | None => [v] end) :: r) end) = false).
  { intros Hes0 Hv. apply is_ub_bind; [eapply e_dec_safe; eassumption|]. intros v _.
    destruct (h_multi (e_h e)); [|apply Hou, Hes0].
    pose proof (peek_safe c g Hok Hi) as Hpk.
    destruct (load_peek_tag c g) as [peek|?|?] eqn:Epk; [|apply Hou, Hes0|discriminate].
    destruct (negb _); [apply Hou, Hes0|].
    destruct (load_next c g) as [h rc] eqn:En.
    destruct (load_next_cases _ _ _ _ Hok Hi En) as (Hm' & Hs' & [(Hx & -> & Hv')|[(w & H1 & -> & Hv' & H2 & H3 & _)|(_ & er & ->)]]).
    - exfalso. revert Epk. unfold load_peek_tag, next_tl_valid.
      change (match ld_val g with None => 0 | Some v0 => v0 + ld_len g end) with (ld_pos g). cbv zeta.
      dif E0; [discriminate|]. dif E1; [discriminate|]. dif E2; [discriminate|]. lia.
    - assert (Hpos : ld_pos h = w + ld_len h) by (unfold ld_pos; rewrite Hv'; reflexivity).
      apply IH; rewrite ?Hm', ?Hs'; auto; [lia|cbn [length]; lia|]. cbn [tl]. split; [assumption|congruence].
    - reflexivity. }
  destruct mode.
  - destruct (load_next_by_tag_inst c g _) as [h rc] eqn:Eb. unfold load_next_by_tag_inst in Eb.
    pose proof (by_tag_loop_spec c (budget (ld_mem g) (ld_srclen g)) g (h_ti (e_h e)) Hok Hi) as Hb.
    rewrite Hm, Hl, budget_app in *. specialize (Hb ltac:(unfold lenN; lia)).
    assert (Hs0 : empty_slots slots) by (inversion Hmode; assumption).
    destruct (by_tag_loop _ c g _) as [g2|er|u] eqn:Ebt; inversion Eb; subst; clear Eb; [| |contradiction].
    + destruct Hb as (B1 & B2 & [B3 B3'] & B4 & v & B5 & B6).
      assert (Hpos : ld_pos h = v + ld_len h) by (unfold ld_pos; rewrite B5; reflexivity).
      apply IH; rewrite ?B1, ?B2; auto; [lia|cbn [length]; lia|]. cbn [tl]. split; [assumption|congruence].
    + destruct er; try reflexivity. destruct (_ && _); [reflexivity|]. apply Hou, Hs0.
  - destruct Hmode as [Hs0 Hv]. cbn [tl] in Hs0. dif E; [apply Hju; assumption|]. apply HH; assumption.
  - destruct Hmode as [Hs0 Hv]. inversion Hs0 as [|? ? Hse Hs1]; subst. dif E; [|apply Hju; assumption].
    assert (Hnb : match h_multi (e_h e) with Some (mx, _) => mx <=? lenN (@nil (val V)) | None => false end = false).
    { unfold max_pos in Hme. destruct (h_multi (e_h e)) as [[mx mand]|]; [|reflexivity]. rewrite lenN_nil. lia. }
    rewrite Hnb. apply HH; assumption.
Qed.

Lemma empty_init es : empty_slots (map (fun _ => []) es).
Proof. apply Forall_forall. intros s Hs. apply in_map_iff in Hs as (x & <- & _). reflexivity. Qed.

Lemma decode_ordered_safe Tail c es d rest :
  cfg_ok c -> tail_closed Tail -> Tail rest -> Forall (entry_safe Tail c true) es -> Forall (fun e => max_pos (e_h e)) es ->
  is_ub (decode_ordered c es (d ++ rest) (lenN d)) = false.
Proof.
  intros Hok Htc Hr Hs Hm. unfold decode_ordered. rewrite budget_app.
  apply (ord_loop_safe Tail c d rest); auto; [unfold ld_pos; cbn; lia|unfold ld_pos, lenN; cbn [load_start ld_val]; lia|apply empty_init].
Qed.

(* ---------------------------------------------------------------- whole tables *)


Lemma entries_decode_local Tail c o (ies : list (coding V)) d rest rest' : cfg_ok c -> tail_closed Tail -> Tail rest -> Tail rest' ->
  Forall (fun d => entry_local Tail c o (entry_of d)) ies ->
  decode_entries c o (map entry_of ies) (d ++ rest) (lenN d) = decode_entries c o (map entry_of ies) (d ++ rest') (lenN d).
Proof.
  intros Hok Htc Hr Hr' Hf. assert (Hf' : Forall (entry_local Tail c o) (map entry_of ies)) by (apply Forall_map; exact Hf).
  destruct o; cbn [decode_entries]; [eapply decode_ordered_local; eassumption|].
  rewrite (decode_unordered_items Tail c _ rest d rest), (decode_unordered_items Tail c _ rest d rest') by assumption. reflexivity.
Qed.

Lemma dec_coding_local Tail : tail_closed Tail -> forall cd,
  all_leaves (leaf_local Tail) cd -> all_cfgs cfg_ok cd -> forall c o, cfg_ok c -> entry_local Tail c o (entry_of cd).
Proof.
  intros Htc. induction cd as [h l|h nc o ies IH] using coding_ind'; intros Hl Hc c po Hok v rest rest' Hr Hr'.
  - cbn. cbn in Hl. destruct (lf_dec l) as [d|] eqn:Ed; [|reflexivity]. rewrite (Hl d v rest rest' Ed Hr Hr'). reflexivity.
  - cbn [all_leaves all_cfgs] in *. destruct Hc as [Hc1 Hc2]. rewrite fold_right_and_Forall in Hl, Hc2.
    cbn. change (map (fun d => mkEntry (head d) (dec_coding d)) ies) with (map entry_of ies).
    set (c' := match nc with Some x => x | None => c end). set (o' := match o with OrdSame => po | OrdOrdered => true | OrdUnordered => false end).
    assert (Hok' : cfg_ok c') by (unfold c'; destruct nc; assumption).
    rewrite (entries_decode_local Tail c' o' ies v rest rest'); auto.
    rewrite Forall_forall in *. intros d Hd. apply IH; auto.
Qed.

Lemma dec_coding_safe Tail : tail_closed Tail -> forall cd,
  all_leaves (leaf_local Tail) cd -> all_leaves (leaf_safe Tail) cd -> all_cfgs cfg_ok cd -> tables maxes_pos cd ->
  forall c o, cfg_ok c -> entry_safe Tail c o (entry_of cd).
Proof.
  intros Htc. induction cd as [h l|h nc o ies IH] using coding_ind'; intros Hl Hsf Hc Ht c po Hok v rest Hr.
  - cbn. cbn in Hsf. destruct (lf_dec l) as [d|] eqn:Ed; [|reflexivity]. apply is_ub_bind; [eapply Hsf; eassumption|reflexivity].
  - cbn [all_leaves all_cfgs tables] in *. destruct Hc as [Hc1 Hc2]. destruct Ht as [Ht1 Ht2].
    rewrite fold_right_and_Forall in Hl, Hc2, Hsf, Ht2.
    cbn. change (map (fun d => mkEntry (head d) (dec_coding d)) ies) with (map entry_of ies).
    set (c' := match nc with Some x => x | None => c end). set (o' := match o with OrdSame => po | OrdOrdered => true | OrdUnordered => false end).
    assert (Hok' : cfg_ok c') by (unfold c'; destruct nc; assumption).
    assert (HL : forall o, Forall (entry_local Tail c' o) (map entry_of ies)).
    { intros o1. apply Forall_map. rewrite Forall_forall in *. intros d Hd. apply dec_coding_local; auto. }
    assert (HS : forall o, Forall (entry_safe Tail c' o) (map entry_of ies)).
    { intros o1. apply Forall_map. rewrite Forall_forall in *. intros d Hd. apply IH; auto. }
    apply is_ub_bind; [|reflexivity]. destruct o'; cbn [decode_entries].
    + eapply decode_ordered_safe; eauto. apply Forall_map. exact Ht1.
    + eapply decode_unordered_safe; eauto.
Qed.

Lemma gtlvs_decode_safe Tail c o (ies : list (coding V)) d rest :
  cfg_ok c -> tail_closed Tail -> Tail rest ->
  Forall (all_leaves (leaf_local Tail)) ies -> Forall (all_leaves (leaf_safe Tail)) ies -> Forall (all_cfgs cfg_ok) ies ->
  all_tables maxes_pos ies ->
  is_ub (gtlvs_decode c o (Some ies) (d ++ rest) (lenN d)) = false.
Proof.
  intros Hok Htc Hr Hl Hs Hc [Ht1 Ht2].
  pose proof (dec_coding_safe Tail Htc (CNest (mkHead (mkTi 0 false 0) false None) None (if o then OrdOrdered else OrdUnordered) ies)) as H.
  cbn [all_leaves all_cfgs tables] in H. rewrite !fold_right_and_Forall in H.
  specialize (H Hl Hs (conj I Hc) (conj Ht1 Ht2) c false Hok d rest Hr).
  cbn [gtlvs_decode]. cbn in H. change (map (fun d => mkEntry (head d) (dec_coding d)) ies) with (map entry_of ies) in H.
  destruct o; destruct (decode_entries _ _ _ _ _); [reflexivity|reflexivity|discriminate|reflexivity|reflexivity|discriminate].
Qed.

Lemma gtlvs_decode_local Tail c o (ies : list (coding V)) d rest rest' :
  cfg_ok c -> tail_closed Tail -> Tail rest -> Tail rest' ->
  Forall (all_leaves (leaf_local Tail)) ies -> Forall (all_cfgs cfg_ok) ies ->
  gtlvs_decode c o (Some ies) (d ++ rest) (lenN d) = gtlvs_decode c o (Some ies) (d ++ rest') (lenN d).
Proof.
  intros Hok Htc Hr Hr' Hl Hc. cbn [gtlvs_decode]. eapply entries_decode_local; eauto.
  rewrite Forall_forall in *. intros x Hx. apply dec_coding_local; auto.
Qed.

End Ord.
