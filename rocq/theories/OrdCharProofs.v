(* OrdCharProofs.v -- C81: what ordered decoding accepts *)
From Verif Require Import Base BaseProofs GtlvModel GtlvSpec GtlvProofs DecEncModel DecEncSpec DecEncProofs DecOrdProofs DecCharProofs RtProofs OrdMandProofs.

Section OC.
Context {V : Type}.
Implicit Types (es : list (entry V)) (slots : list (slot V)) (cd : coding V) (c : cfg).

Lemma items_for_none (e : coding V) l : items_for e l = [] <-> Forall (fun it : item => ti_match (h_ti (head e)) (fst it) = false) l.
Proof.
  unfold items_for. induction l as [|it l IH]; [split; [constructor|reflexivity]|]. cbn [filter]. destruct (ti_match (h_ti (head e)) (fst it)) eqn:E.
  - split; [discriminate|]. intros H. inversion H; congruence.
  - rewrite IH. split; [intros H; constructor; assumption|intros H; inversion H; assumption].
Qed.
Lemma items_for_all (e : coding V) l : items_for e l = l <-> Forall (fun it : item => ti_match (h_ti (head e)) (fst it) = true) l.
Proof.
  unfold items_for. split.
  - intros H. apply Forall_forall. intros it Hit. rewrite <- H in Hit. apply filter_In in Hit. exact (proj2 Hit).
  - induction 1 as [|it l Hit H IH]; [reflexivity|]. cbn [filter]. rewrite Hit. exact (f_equal (cons it) IH).
Qed.
Lemma first_match_some ti items a (x : item) b : first_match ti items = Some (a, x, b) -> items = a ++ x :: b /\ Forall (fun it : item => ti_match (fst it) ti = false) a /\ ti_match (fst x) ti = true.
Proof.
  revert a. induction items as [|it items IH]; intros a; cbn [first_match]; [discriminate|]. destruct (ti_match (fst it) ti) eqn:E.
  - intros [= <- <- <-]. repeat split; [constructor|exact E].
  - destruct (first_match ti items) as [[[a' x'] b']|]; [|discriminate]. intros [= <- <- <-]. destruct (IH a' eq_refl) as (-> & A & B).
    repeat split; [constructor; assumption|exact B].
Qed.
Lemma first_match_no ti (items : list item) : first_match ti items = None -> Forall (fun it : item => ti_match (fst it) ti = false) items.
Proof.
  induction items as [|it items IH]; cbn [first_match]; [constructor|]. destruct (ti_match (fst it) ti) eqn:E; [discriminate|].
  destruct (first_match ti items) as [[[? ?] ?]|]; [discriminate|]. intros _. constructor; [exact E|exact (IH eq_refl)].
Qed.

(* what the inner loop makes of the current IE [it] and those that follow *)
Definition run_of (P : list item -> list (slot V) -> Prop) c (rest : list N) (e : coding V) (s0 : slot V) (it : item) (items : list item) (out : list (slot V)) : Prop :=
  exists run items2 vs sl, items = run ++ items2 /\ out = (s0 ++ vs) :: sl /\ Forall (fun it : item => ti_match (h_ti (head e)) (fst it) = true) run
    /\ Forall2 (fun (it : item) v => dec_coding e c true (snd it ++ rest) (lenN (snd it)) = Ok v) (it :: run) vs
    /\ match h_multi (head e) with
       | None => run = []
       | Some (mx, _) => lenN s0 + lenN (it :: run) <= mx /\ match items2 with x :: _ => ti_match (h_ti (head e)) (fst x) = false | [] => True end
       end
    /\ P items2 sl.

Lemma ord_inner_iff Tail c d rest (e : coding V) es slots (P : list item -> list (slot V) -> Prop) :
  cfg_ok c -> tail_closed Tail -> Tail rest -> entry_local Tail c true (entry_of e) ->
  Forall (fun e' => ti_match (h_ti (head e)) (h_ti (e_h e')) = false) es ->
  (forall fuel g items sl, (length es + length items < fuel)%nat -> ahead c d rest g items -> (ord_loop fuel MOuter c es g slots = Ok sl <-> P items sl)) ->
  forall items it s0 fuel g out,
  ti_match (h_ti (head e)) (fst it) = true -> (h_multi (head e) = None -> s0 = []) ->
  ahead c d rest g items -> cur g rest it -> (S (length es) + length items < fuel)%nat ->
  (ord_loop fuel MInner c (entry_of e :: es) g (s0 :: slots) = Ok out <-> run_of P c rest e s0 it items out).
Proof.
  intros Hok Htc Hr Hloc Hoth Hout. unfold entry_local in Hloc. cbn [entry_of e_dec] in Hloc. induction items as [|it2 items IH]; intros it s0 fuel g out Ht Hs0 Ha Hcu Hf;
    (destruct fuel as [|f]; [lia|]); cbn [ord_loop]; cbn [e_h entry_of e_dec];
    (assert (FULL : forall l, match h_multi (head e) with Some (mx, _) => mx <=? lenN s0 | None => false end = true ->
       (r <- ord_loop f MJump c es g slots;; Ok (s0 :: r)) = Ok out <-> run_of P c rest e s0 it l out);
     [intros l E; split;
       [intros H; apply bind_ok in H as (r & H & _); exfalso; eapply (jump_nomatch c es g); [|exact H];
        rewrite (cu_ti _ _ _ Hcu); eapply Forall_impl; [|exact Hoth]; cbn; intros e' He'; destruct (ti_match (h_ti (e_h e')) (fst it)) eqn:Q; [|reflexivity];
        rewrite ti_match_sym in Q; rewrite (ti_match_trans _ _ _ Ht Q) in He'; discriminate
       |intros (run & i2 & vs & sl & _ & _ & _ & _ & A & _); destruct (h_multi (head e)) as [[mx mand]|]; [|discriminate];
        rewrite lenN_cons in A; lia]
     |]);
    (destruct (match h_multi (head e) with Some (mx, _) => mx <=? lenN s0 | None => false end) eqn:Efull; [exact (FULL _ eq_refl)|clear FULL]);
    destruct (cu_val _ _ _ Hcu) as (w & r & Hv & Hm); rewrite Hv, Hm, (cu_len _ _ _ Hcu);
    rewrite (Hloc (snd it) (r ++ rest) rest (Htc _ _ Hr) Hr);
    (destruct (dec_coding e c true (snd it ++ rest) (lenN (snd it))) as [v|er|u] eqn:Ed; cbn [bind];
      [|split; [discriminate|intros (run & i2 & vs & sl & _ & _ & _ & A & _); inversion A; congruence]
       |split; [discriminate|intros (run & i2 & vs & sl & _ & _ & _ & A & _); inversion A; congruence]]);
    rewrite (ahead_peek _ _ _ _ _ Hok Ha), ?(cu_ti _ _ _ Hcu).
  - assert (Q : forall s1, (r0 <- ord_loop f MOuter c es g slots;; Ok (s1 :: r0)) = Ok out <-> exists sl, out = s1 :: sl /\ P [] sl).
    { intros s1. split.
      - intros H. apply bind_ok in H as (sl & H1 & H2). injection H2 as <-. exists sl. split; [reflexivity|]. apply (Hout f g []); [cbn in *; lia|exact Ha|exact H1].
      - intros (sl & -> & H). apply (Hout f g []) in H; [|cbn in *; lia|exact Ha]. rewrite H. reflexivity. }
    destruct (h_multi (head e)) as [[mx mand]|] eqn:Em; rewrite Q; unfold run_of; rewrite Em; split.
    + intros (sl & -> & H). exists [], [], [v], sl. split; [reflexivity|]. split; [reflexivity|]. split; [constructor|]. split; [constructor; [exact Ed|constructor]|]. split; [split; [rewrite lenN_cons, lenN_nil; lia|exact I]|exact H].
    + intros (run & i2 & vs & sl & A & -> & _ & B & _ & C). destruct run; [|discriminate]. cbn [app] in A. subst i2. inversion B as [|? ? ? ? B1 B2]; subst. inversion B2; subst.
      exists sl. split; [|exact C]. rewrite Ed in B1. injection B1 as <-. reflexivity.
    + intros (sl & -> & H). exists [], [], [v], sl. rewrite (Hs0 eq_refl). split; [reflexivity|]. split; [reflexivity|]. split; [constructor|]. split; [constructor; [exact Ed|constructor]|]. split; [reflexivity|exact H].
    + intros (run & i2 & vs & sl & A & -> & _ & B & -> & C). cbn [app] in A. subst i2. inversion B as [|? ? ? ? B1 B2]; subst. inversion B2; subst.
      exists sl. split; [|exact C]. rewrite Ed in B1. injection B1 as <-. rewrite (Hs0 eq_refl). reflexivity.
  - assert (Q : forall s1, (r0 <- ord_loop f MOuter c es g slots;; Ok (s1 :: r0)) = Ok out <-> exists sl, out = s1 :: sl /\ P (it2 :: items) sl).
    { intros s1. split.
      - intros H. apply bind_ok in H as (sl & H1 & H2). injection H2 as <-. exists sl. split; [reflexivity|]. apply (Hout f g (it2 :: items)); [cbn in *; lia|exact Ha|exact H1].
      - intros (sl & -> & H). apply (Hout f g (it2 :: items)) in H; [|cbn in *; lia|exact Ha]. rewrite H. reflexivity. }
    destruct (h_multi (head e)) as [[mx mand]|] eqn:Em.
    + assert (Et : ti_match (fst it2) (fst it) = ti_match (h_ti (head e)) (fst it2)).
      { destruct (ti_match (h_ti (head e)) (fst it2)) eqn:E1.
        - rewrite ti_match_sym in E1. exact (ti_match_trans _ _ _ E1 Ht).
        - destruct (ti_match (fst it2) (fst it)) eqn:E2; [|reflexivity]. rewrite ti_match_sym in E2. rewrite (ti_match_trans _ _ _ Ht E2) in E1. discriminate. }
      rewrite Et. destruct (ti_match (h_ti (head e)) (fst it2)) eqn:E2; cbn [negb].
      * destruct (ahead_cons _ _ _ _ _ _ Hok Ha) as (g' & -> & Ha' & Hcu' & _).
        rewrite (IH it2 (s0 ++ [v]) f g' out E2 ltac:(discriminate) Ha' Hcu' ltac:(cbn in Hf; lia)). unfold run_of. rewrite Em. split.
        -- intros (run & i2 & vs & sl & -> & -> & A & B & (C1 & C2) & D). exists (it2 :: run), i2, (v :: vs), sl. rewrite <- app_assoc. repeat split; auto.
           rewrite lenN_app, !lenN_cons, lenN_nil in *. lia.
        -- intros (run & i2 & vs & sl & A & -> & B & C & (D1 & D2) & E). destruct run as [|x run].
           { cbn [app] in A. subst i2. cbv beta iota in D2. congruence. }
           cbn [app] in A. injection A as <- ->. inversion B; subst. inversion C as [|? ? ? ? C1 C2]; subst.
           exists run, i2, l', sl. rewrite <- app_assoc. cbn [app]. repeat split; auto; [congruence|]. rewrite lenN_app, !lenN_cons, lenN_nil in *. lia.
      * rewrite Q. unfold run_of. rewrite Em. split.
        -- intros (sl & -> & H). exists [], (it2 :: items), [v], sl. split; [reflexivity|]. split; [reflexivity|]. split; [constructor|]. split; [constructor; [exact Ed|constructor]|]. split; [split; [rewrite lenN_cons, lenN_nil; lia|exact E2]|exact H].
        -- intros (run & i2 & vs & sl & A & -> & B & C & _ & E). destruct run as [|x run]; [|cbn [app] in A; injection A as <- _; inversion B; congruence].
           cbn [app] in A. subst i2. inversion C as [|? ? ? ? C1 C2]; subst. inversion C2; subst. exists sl. split; [|exact E]. rewrite Ed in C1. injection C1 as <-. reflexivity.
    + rewrite Q. unfold run_of. rewrite Em. split.
      * intros (sl & -> & H). exists [], (it2 :: items), [v], sl. rewrite (Hs0 eq_refl). split; [reflexivity|]. split; [reflexivity|]. split; [constructor|]. split; [constructor; [exact Ed|constructor]|]. split; [reflexivity|exact H].
      * intros (run & i2 & vs & sl & A & -> & _ & B & -> & C). cbn [app] in A. subst i2. inversion B as [|? ? ? ? B1 B2]; subst. inversion B2; subst.
        exists sl. split; [|exact C]. rewrite Ed in B1. injection B1 as <-. rewrite (Hs0 eq_refl). reflexivity.
Qed.

Lemma ord_iff Tail c d rest : cfg_ok c -> tail_closed Tail -> Tail rest ->
  forall ies, Forall (fun e => entry_local Tail c true (entry_of e)) ies -> es_distinct (map entry_of ies) ->
  forall fuel g items slots, (length (map entry_of ies) + length items < fuel)%nat -> ahead c d rest g items ->
  (ord_loop fuel MOuter c (map entry_of ies) g (map (fun _ => []) ies) = Ok slots <-> in_order c rest ies items slots).
Proof.
  intros Hok Htc Hr. induction ies as [|e ies IH]; intros Hloc Hd fuel g items slots Hf Ha.
  - destruct fuel; [lia|]. cbn [map ord_loop]. split; [intros [= <-]; constructor|intros H; inversion H; reflexivity].
  - cbn [map es_distinct] in Hd. destruct Hd as [Hd1 Hd2]. cbn [entry_of e_h] in Hd1. inversion Hloc as [|? ? L1 L2]; subst.
    destruct fuel as [|f]; [lia|]. cbn [map length] in *. cbn [ord_loop]. cbn [e_h entry_of].
    pose proof (ahead_by_tag c d rest (h_ti (head e)) g _ Hok Ha) as Hb.
    destruct (first_match (h_ti (head e)) items) as [[[a x] b]|] eqn:Ef.
    + destruct (first_match_some _ _ _ _ _ Ef) as (-> & F1 & F2). destruct Hb as (g' & -> & Ha' & Hcu & _). rewrite ti_match_sym in F2.
      assert (Na : items_for e a = []).
      { apply items_for_none. eapply Forall_impl; [|exact F1]. cbn. intros y Hy. rewrite ti_match_sym. exact Hy. }
      change (mkEntry (head e) (dec_coding e)) with (entry_of e).
      rewrite (ord_inner_iff Tail c d rest e (map entry_of ies) (map (fun _ => []) ies) (fun items sl => in_order c rest ies items sl) Hok Htc Hr L1 Hd1
        (fun fuel g items sl H1 H2 => IH L2 Hd2 fuel g items sl H1 H2) b x [] f g' slots F2 ltac:(reflexivity) Ha' Hcu ltac:(rewrite app_length in Hf; cbn [length] in Hf; lia)).
      unfold run_of. split.
      * intros (run & i2 & vs & sl & -> & -> & A & B & C & D). cbn [app]. change (a ++ x :: run ++ i2) with (a ++ (x :: run) ++ i2).
        apply IO_present; [exact Na|discriminate|apply items_for_all; constructor; assumption| |exact B|exact D].
        destruct (h_multi (head e)) as [[mx mand]|]; [|subst run; reflexivity]. destruct C as [C1 C2]. split; [rewrite lenN_nil in C1; lia|exact C2].
      * intros H. inversion H as [|? ? ? ? N _ _ |? ? skipped run items2 s sl N1 N2 N3 N4 N5 N6 Q1 Q2 Q3]; subst.
        -- exfalso. apply items_for_none in N. rewrite Forall_app in N. destruct N as [_ N]. inversion N; congruence.
        -- apply items_for_none in N1, Na. apply items_for_all in N3. destruct run as [|y run]; [congruence|]. inversion N3 as [|? ? N31 N32]; subst.
           assert (E : skipped = a /\ y :: run ++ items2 = x :: b).
           { clear -Q2 N1 N31 Na F2. revert a Q2 Na. induction N1 as [|k skipped K N1 IH]; intros a Q Na; (destruct a as [|k' a]; cbn [app] in Q).
             - split; [reflexivity|exact Q].
             - injection Q as <- _. inversion Na; congruence.
             - injection Q as <- _. congruence.
             - injection Q as <- Q. inversion Na; subst. destruct (IH a Q ltac:(assumption)) as [-> ->]. split; reflexivity. }
           destruct E as [-> E]. injection E as <- <-. exists run, items2, s, sl. repeat split; auto.
           destruct (h_multi (head e)) as [[mx mand]|]; [rewrite lenN_nil; exact N4|]. destruct run; [reflexivity|]. rewrite !lenN_cons in N4. lia.
    + rewrite Hb. assert (Na : items_for e items = []).
      { apply items_for_none. eapply Forall_impl; [|exact (first_match_no _ _ Ef)]. cbn. intros y Hy. rewrite ti_match_sym. exact Hy. }
      assert (El : negb (h_pres (head e)) && match h_multi (head e) with Some (_, mand) => lenN (@nil (val V)) <? mand | None => true end = negb (low_of (head e) =? 0)).
      { unfold low_of. rewrite lenN_nil. destruct (h_pres (head e)); [reflexivity|]. cbn [negb andb]. destruct (h_multi (head e)) as [[mx mand]|]; [lia|reflexivity]. }
      rewrite El. destruct (N.eqb_spec (low_of (head e)) 0) as [E0|E0]; cbn [negb].
      * split.
        -- intros H. apply bind_ok in H as (sl & H1 & H2). replace (if h_pres (head e) then [] else []) with (@nil (val V)) in H2 by (destruct (h_pres (head e)); reflexivity).
           injection H2 as <-. apply IO_absent; [exact Na|exact E0|]. apply (IH L2 Hd2 f g); [lia|exact Ha|exact H1].
        -- intros H. inversion H as [|? ? ? sl N1 N2 N3|? ? skipped run items2 s sl N1 N2 N3 N4 N5 N6 Q1 Q2 Q3]; subst.
           ++ apply (IH L2 Hd2 f g) in N3; [|lia|exact Ha]. rewrite N3. destruct (h_pres (head e)); reflexivity.
           ++ exfalso. apply items_for_none in Na. rewrite !Forall_app in Na. destruct Na as (_ & Na & _). destruct run; [congruence|]. apply items_for_all in N3. inversion Na; inversion N3; congruence.
      * split; [discriminate|]. intros H. exfalso. inversion H as [|? ? ? sl N1 N2 N3|? ? skipped run items2 s sl N1 N2 N3 N4 N5 N6 Q1 Q2 Q3]; subst; [congruence|].
        apply items_for_none in Na. rewrite !Forall_app in Na. destruct Na as (_ & Na & _). destruct run; [congruence|]. apply items_for_all in N3. inversion Na; inversion N3; congruence.
Qed.

Theorem decode_ordered_iff Tail c (ies : list (coding V)) d rest items slots :
  cfg_ok c -> tail_closed Tail -> Tail rest -> Forall (all_leaves (leaf_local Tail)) ies -> Forall (all_cfgs cfg_ok) ies -> distinct_tags ies ->
  parse c d (lenN d) = Ok items ->
  (gtlvs_decode c true (Some ies) (d ++ rest) (lenN d) = Ok slots <-> in_order c rest ies items slots).
Proof.
  intros Hok Htc Hr Hl Hc Hd Hp. cbn [gtlvs_decode decode_entries]. unfold decode_ordered. rewrite budget_app, map_map.
  rewrite parse_parsed in Hp by exact Hok. destruct (parsed c d) as [its st] eqn:Ep. destruct st as [[]|e|u]; try discriminate. injection Hp as ->.
  pose proof (ahead_start c d rest _ Ep) as Ha. pose proof (ahead_length _ _ _ _ _ Hok Ha) as Hlen.
  assert (HL : Forall (fun e => entry_local Tail c true (entry_of e)) ies).
  { rewrite Forall_forall in *. intros x Hx. apply dec_coding_local; auto. }
  apply (ord_iff Tail c d rest Hok Htc Hr ies HL (distinct_es _ Hd)); [|exact Ha].
  unfold lenN in Hlen. unfold ld_pos in Hlen. cbn [load_start ld_val] in Hlen. lia.
Qed.
End OC.
