(* RepProofs.v -- C84: what ordered decoding of any data with any table does *)
From Verif Require Import Base BaseProofs GtlvModel GtlvSpec GtlvProofs DecEncModel DecEncSpec DecEncProofs DecOrdProofs DecCharProofs RtProofs OrdMandProofs OrdCharProofs RepSpec.

(* ---------------------------------------------------------------- the IEs and the ending of any data *)
Fixpoint scan (fuel : nat) (c : cfg) (m : list N) : list item * ending :=
  match fuel with
  | O => ([], Proper)
  | S f =>
    if lenN m =? 0 then ([], Proper) else
    if lenN m <? cfg_min c then ([], Broken EBADMSG None) else
    match cfg_load c m (lenN m) with
    | Err e => ([], Broken e None)
    | UB u => ([], Proper)
    | Ok (ti, len, h) =>
      if lenN m <? h + len then ([], Broken EBADMSG (Some ti)) else
      let '(l, en) := scan f c (dropN (h + len) m) in
      ((ti, takeN len (dropN h m)) :: l, en)
    end
  end.
Lemma scan_fuel c : cfg_ok c -> forall f1 f2 d, (length d < f1)%nat -> (length d < f2)%nat -> scan f1 c d = scan f2 c d.
Proof.
  intros Hok. induction f1 as [|f1 IH]; intros f2 d H1 H2; [lia|]. destruct f2 as [|f2]; [lia|].
  cbn [scan]. destruct (lenN d =? 0) eqn:E0; [reflexivity|]. destruct (lenN d <? cfg_min c) eqn:E1; [reflexivity|].
  pose proof (ok_load c Hok d (lenN d) ltac:(lia) ltac:(lia)) as Hld. pose proof (ok_min c Hok) as Hm.
  destruct (cfg_load c d (lenN d)) as [[[ti len] h]|e|u]; try reflexivity.
  destruct (lenN d <? h + len) eqn:E2; [reflexivity|]. rewrite (IH f2); [reflexivity| |];
  pose proof (lenN_dropN (h + len) d) as Hx; unfold lenN in *; lia.
Qed.
Lemma scan_length c : cfg_ok c -> forall f m, (length (fst (scan f c m)) <= length m)%nat.
Proof.
  intros Hok. pose proof (ok_min c Hok) as Hmin. induction f as [|f IH]; intros m; cbn [scan fst length]; [lia|].
  dif E0; [cbn; lia|]. dif E1; [cbn; lia|].
  pose proof (ok_load c Hok m (lenN m) ltac:(lia) ltac:(lia)) as Hld.
  destruct (cfg_load c m (lenN m)) as [[[ti len] h]|e|u]; try (cbn; lia). dif E2; [cbn; lia|].
  specialize (IH (dropN (h + len) m)). pose proof (lenN_dropN (h + len) m) as Hx.
  destruct (scan f c _) as [l en]. cbn [fst length] in *. unfold lenN in *. lia.
Qed.
Definition scanned (c : cfg) (d : list N) : list item * ending := scan (S (length d)) c d.

(* a loader in front of the rest of the data *)
Record aheads (c : cfg) (d rest : list N) (g : load) (items : list item) (en : ending) : Prop := {
  as_mem : ld_mem g = d ++ rest;
  as_len : ld_srclen g = lenN d;
  as_pos : ld_pos g <= lenN d;
  as_items : scanned c (dropN (ld_pos g) d) = (items, en)
}.
Lemma peek_rem c g : ld_pos g <= ld_srclen g ->
  load_peek_tag c g =
  let left := ld_srclen g - ld_pos g in
  if left =? 0 then Err ENOENT else
  if left <? cfg_min c then Err EBADMSG else
  match cfg_load c (dropN (ld_pos g) (ld_mem g)) left with
  | Err _ => Err EBADMSG
  | UB u => UB u
  | Ok (ti, _, _) => Ok ti
  end.
Proof.
  intros H. unfold load_peek_tag, next_tl_valid. fold (ld_pos g). cbv zeta.
  destruct (N.ltb_spec (ld_srclen g) (ld_pos g)); [lia|]. destruct (N.ltb_spec (ld_srclen g) (ld_srclen g - ld_pos g)); [lia|]. rewrite orb_false_r.
  destruct (ld_srclen g - ld_pos g =? 0) eqn:E; cbn [negb andb]; [rewrite E; reflexivity|]. dif E1; [reflexivity|]. rewrite E. reflexivity.
Qed.

Lemma aheads_nil c d rest g en : cfg_ok c -> aheads c d rest g [] en ->
  match en with
  | Proper => load_next c g = (mkLoad (ld_mem g) (ld_srclen g) (ld_ti g) (ld_len g) None, Ok tt) /\ load_peek_tag c g = Err ENOENT
  | Broken e t => (exists g', load_next c g = (g', Err e)) /\ match t with Some ti => load_peek_tag c g = Ok ti | None => load_peek_tag c g = Err EBADMSG end
  end.
Proof.
  intros Hok [Hm Hl Hp Hi]. rewrite load_next_rem, peek_rem by (rewrite Hl; exact Hp). cbv zeta. rewrite Hl, Hm.
  unfold scanned in Hi. cbn [scan] in Hi. rewrite !lenN_dropN in Hi.
  dif E0; [injection Hi as <-; split; reflexivity|]. dif_in Hi E1; [injection Hi as <-; eauto|].
  rewrite dropN_app_le by exact Hp. rewrite (ok_local c Hok) by (rewrite ?lenN_dropN; lia).
  pose proof (ok_load c Hok (dropN (ld_pos g) d) (lenN d - ld_pos g) ltac:(rewrite lenN_dropN; lia) ltac:(lia)) as Hld.
  destruct (cfg_load c _ _) as [[[ti len] h]|e|u]; [|injection Hi as <-; eauto|contradiction]. dif_in Hi E2; [injection Hi as <-; eauto|].
  destruct (scan _ c _) in Hi. discriminate.
Qed.
Lemma aheads_cons c d rest g it items en : cfg_ok c -> aheads c d rest g (it :: items) en ->
  exists g', load_next c g = (g', Ok tt) /\ aheads c d rest g' items en /\ cur g' rest it /\ ld_pos g < ld_pos g' /\ load_peek_tag c g = Ok (fst it).
Proof.
  intros Hok [Hm Hl Hp Hi]. rewrite load_next_rem, peek_rem by (rewrite Hl; exact Hp). cbv zeta. rewrite Hl, Hm.
  unfold scanned in Hi. cbn [scan] in Hi. rewrite !lenN_dropN in Hi.
  dif E0; [discriminate|]. dif_in Hi E1; [discriminate|].
  rewrite dropN_app_le by exact Hp. rewrite (ok_local c Hok) by (rewrite ?lenN_dropN; lia).
  pose proof (ok_load c Hok (dropN (ld_pos g) d) (lenN d - ld_pos g) ltac:(rewrite lenN_dropN; lia) ltac:(lia)) as Hld.
  pose proof (ok_min c Hok) as Hmin.
  destruct (cfg_load c _ _) as [[[ti len] h]|e|u]; try discriminate. dif_in Hi E2; [discriminate|].
  rewrite !dropN_dropN in Hi.
  destruct (scan (length (dropN (ld_pos g) d)) c _) as [l en'] eqn:Ep. injection Hi as <- <- <-.
  eexists. split; [reflexivity|]. split; [|split; [|split; [|reflexivity]]].
  - split; cbn [ld_mem ld_srclen]; auto; unfold ld_pos at 1; cbn [ld_val ld_len]; [lia|].
    unfold scanned. rewrite <- Ep. replace (ld_pos g + h + len) with (ld_pos g + (h + len)) by lia.
    apply scan_fuel; [exact Hok|lia|].
    pose proof (lenN_dropN (ld_pos g) d). pose proof (lenN_dropN (ld_pos g + (h + len)) d). unfold lenN in *. lia.
  - split; cbn [ld_mem ld_srclen ld_ti ld_len ld_val fst snd]; auto.
    + rewrite lenN_takeN; [reflexivity|]. rewrite lenN_dropN. lia.
    + exists (ld_pos g + h), (dropN (h + len) (dropN (ld_pos g) d)). split; [reflexivity|].
      rewrite dropN_app_le by lia. rewrite app_assoc. f_equal. rewrite <- (takeN_dropN len (dropN (ld_pos g + h) d)) at 1.
      rewrite !dropN_dropN. f_equal. f_equal. lia.
  - unfold ld_pos at 2; cbn [ld_val ld_len]. lia.
Qed.
Lemma aheads_length c d rest g items en : cfg_ok c -> aheads c d rest g items en -> (length items <= N.to_nat (lenN d - ld_pos g))%nat.
Proof.
  intros Hok [Hm Hl Hp Hi]. unfold scanned in Hi.
  pose proof (scan_length c Hok (S (length (dropN (ld_pos g) d))) (dropN (ld_pos g) d)) as H.
  rewrite Hi in H. cbn [fst] in H. pose proof (lenN_dropN (ld_pos g) d). unfold lenN in *. lia.
Qed.
Lemma aheads_start c d rest items en : scanned c d = (items, en) -> aheads c d rest (load_start (d ++ rest) (lenN d)) items en.
Proof. intros H. split; try reflexivity; unfold ld_pos; cbn [ld_val load_start]; [lia|]. rewrite dropN_0. exact H. Qed.

(* [reads] is what [scan] computes *)
Lemma scanned_reads c d items en : cfg_ok c -> scanned c d = (items, en) -> reads c d items en.
Proof.
  intros Hok H. pose proof (aheads_start c d [] items en H) as Ha. rewrite app_nil_r in Ha. unfold reads.
  enough (G : forall items g, aheads c d [] g items en -> exists g', leads c g items g' /\ aheads c d [] g' [] en).
  { destruct (G _ _ Ha) as (g & L & A). exists g. split; [exact L|]. pose proof (aheads_nil _ _ _ _ _ Hok A) as N. destruct en as [|e t].
    - destruct N as [N _]. eexists. split; [exact N|reflexivity].
    - destruct N as [(g' & N) P]. rewrite N. split; [reflexivity|]. destruct t; rewrite P; reflexivity. }
  clear H Ha items. induction items as [|it items IH]; intros g Ha; [exists g; split; [constructor|exact Ha]|].
  destruct (aheads_cons _ _ _ _ _ _ _ Hok Ha) as (g1 & N & A & C & _ & _). destruct (IH _ A) as (g2 & L & A2). exists g2. split; [|exact A2].
  destruct (cu_val _ _ _ C) as (v & r & Hv & Hm).
  replace it with (ld_ti g1, takeN (ld_len g1) (dropN v (ld_mem g1))); [econstructor; eassumption|].
  rewrite Hm, (cu_ti _ _ _ C), (cu_len _ _ _ C). rewrite takeN_app. destruct it; reflexivity.
Qed.
Lemma reads_unique c d items en items' en' : reads c d items en -> reads c d items' en' -> items = items' /\ en = en'.
Proof.
  intros (g & L & E) (g' & L' & E').
  assert (D : forall g0 items g, leads c g0 items g -> match en with Proper => exists g', load_next c g = (g', Ok tt) /\ ld_val g' = None | Broken e _ => snd (load_next c g) = Err e end ->
     forall items' g', leads c g0 items' g' -> match en' with Proper => exists g1, load_next c g' = (g1, Ok tt) /\ ld_val g1 = None | Broken e _ => snd (load_next c g') = Err e end -> items = items' /\ g = g').
  { clear. intros g0 items g L. induction L as [g|g g1 v items g2 N Hv L IH]; intros E items' g' L' E'.
    - destruct L' as [g|g g1 v items' g2 N Hv L']; [split; reflexivity|]. exfalso. rewrite N in E. destruct en; [|discriminate]. destruct E as (x & [= <-] & E). congruence.
    - inversion L' as [|? g1' v' items'' g2' N' Hv' L'']; subst.
      + exfalso. rewrite N in E'. destruct en'; [|discriminate]. destruct E' as (x & [= <-] & E'). congruence.
      + rewrite N in N'. injection N' as <-. rewrite Hv in Hv'. injection Hv' as <-. destruct (IH E _ _ L'' E') as [-> ->]. split; reflexivity. }
  assert (X : items = items' /\ g = g').
  { eapply D; [exact L| |exact L'|]; [destruct en; [exact E|exact (proj1 E)]|destruct en'; [exact E'|exact (proj1 E')]]. }
  destruct X as [-> <-]. split; [reflexivity|]. destruct en, en'; [reflexivity|destruct E as (x & N & E), E' as [E' _]; rewrite N in E'; discriminate
    |destruct E as [E _], E' as (x & N & E'); rewrite N in E; discriminate|]. destruct E as [E ->], E' as [E' ->]. rewrite E in E'. injection E' as ->. reflexivity.
Qed.
Theorem reads_total c d : cfg_ok c -> exists items en, reads c d items en /\ forall items' en', reads c d items' en' -> items' = items /\ en' = en.
Proof.
  intros Hok. destruct (scanned c d) as [items en] eqn:E. exists items, en. pose proof (scanned_reads c d items en Hok E) as R. split; [exact R|].
  intros i' e' R'. exact (reads_unique c d i' e' items en R' R).
Qed.
Lemma reads_scanned c d items en : cfg_ok c -> reads c d items en -> scanned c d = (items, en).
Proof.
  intros Hok R. destruct (scanned c d) as [i' e'] eqn:E. destruct (reads_unique c d _ _ _ _ R (scanned_reads c d i' e' Hok E)) as [-> ->]. reflexivity.
Qed.
(* data that ends properly is what [parse] accepts *)
Lemma pitems_scan c : cfg_ok c -> forall f d, (length d < f)%nat ->
  pitems f c d (lenN d) = let '(l, en) := scan f c d in (l, match en with Proper => Ok tt | Broken e _ => Err e end).
Proof.
  intros Hok. induction f as [|f IH]; intros d Hf; [lia|]. cbn [pitems scan]. dif E0; [reflexivity|]. dif E1; [reflexivity|].
  pose proof (ok_load c Hok d (lenN d) ltac:(lia) ltac:(lia)) as Hld. pose proof (ok_min c Hok) as Hmin.
  destruct (cfg_load c d (lenN d)) as [[[ti len] h]|e|u]; [|reflexivity|contradiction]. dif E2; [reflexivity|].
  replace (lenN d - (h + len)) with (lenN (dropN (h + len) d)) by (rewrite lenN_dropN; lia).
  rewrite IH by (pose proof (lenN_dropN (h + len) d); unfold lenN in *; lia). destruct (scan f c _) as [l en]. reflexivity.
Qed.
Theorem reads_parse c d items : cfg_ok c -> (reads c d items Proper <-> parse c d (lenN d) = Ok items).
Proof.
  intros Hok. rewrite (parse_parsed c d Hok). unfold parsed. rewrite (pitems_scan c Hok) by lia. split.
  - intros R. apply (reads_scanned c d _ _ Hok) in R. unfold scanned in R. rewrite R. reflexivity.
  - intros H. apply (scanned_reads c d _ _ Hok). unfold scanned. destruct (scan _ c d) as [l en]. destruct en as [|e t]; cbn in H; [injection H as <-; reflexivity|discriminate].
Qed.

Lemma aheads_by_tag_loop c d rest ti en : cfg_ok c -> forall items fuel g, aheads c d rest g items en -> (length items < fuel)%nat ->
  match first_match ti items with
  | None => by_tag_loop fuel c g ti = Err (match en with Proper => ENOENT | Broken e _ => e end)
  | Some (_, x, b) => exists g', by_tag_loop fuel c g ti = Ok g' /\ aheads c d rest g' b en /\ cur g' rest x /\ ld_pos g < ld_pos g'
  end.
Proof.
  intros Hok. induction items as [|it items IH]; intros fuel g Ha Hf; (destruct fuel as [|f]; [cbn in Hf; lia|]); cbn [first_match by_tag_loop].
  - pose proof (aheads_nil _ _ _ _ _ Hok Ha) as N. destruct en as [|e t]; [destruct N as [-> _]; reflexivity|destruct N as [(g' & ->) _]; reflexivity].
  - destruct (aheads_cons _ _ _ _ _ _ _ Hok Ha) as (g1 & -> & Ha1 & Hc1 & Hp1 & _).
    destruct (cu_val _ _ _ Hc1) as (v & r & -> & _). rewrite (cu_ti _ _ _ Hc1).
    destruct (ti_match (fst it) ti); [eauto 6|].
    specialize (IH f g1 Ha1 ltac:(cbn in Hf; lia)). destruct (first_match ti items) as [[[a x] b]|]; [|exact IH].
    destruct IH as (g2 & H1 & H2 & H3 & H4). exists g2. split; [exact H1|]. split; [exact H2|]. split; [exact H3|lia].
Qed.
Lemma aheads_by_tag c d rest ti g items en : cfg_ok c -> aheads c d rest g items en ->
  match first_match ti items with
  | None => load_next_by_tag_inst c g ti = (g, Err (match en with Proper => ENOENT | Broken e _ => e end))
  | Some (_, x, b) => exists g', load_next_by_tag_inst c g ti = (g', Ok tt) /\ aheads c d rest g' b en /\ cur g' rest x /\ ld_pos g < ld_pos g'
  end.
Proof.
  intros Hok Ha. pose proof (aheads_length _ _ _ _ _ _ Hok Ha) as Hlen.
  pose proof (aheads_by_tag_loop c d rest ti en Hok items (budget (ld_mem g) (ld_srclen g)) g Ha) as H.
  unfold load_next_by_tag_inst. rewrite (as_mem _ _ _ _ _ _ Ha), (as_len _ _ _ _ _ _ Ha), budget_app in *.
  specialize (H ltac:(unfold lenN in *; lia)).
  destruct (first_match ti items) as [[[a x] b]|]; [|rewrite H; reflexivity].
  destruct H as (g' & H1 & H2). exists g'. rewrite H1. auto.
Qed.
Lemma aheads_peek c d rest g items en : cfg_ok c -> aheads c d rest g items en ->
  match next_tag items en with Some t => load_peek_tag c g = Ok t | None => exists e, load_peek_tag c g = Err e end.
Proof.
  intros Hok Ha. destruct items as [|it items]; cbn [next_tag].
  - pose proof (aheads_nil _ _ _ _ _ Hok Ha) as N. destruct en as [|e [t|]]; [destruct N as [_ ->]; eauto|exact (proj2 N)|destruct N as [_ ->]; eauto].
  - destruct (aheads_cons _ _ _ _ _ _ _ Hok Ha) as (g1 & _ & _ & _ & _ & P). exact P.
Qed.

Section OR.
Context {V : Type}.
Implicit Types (es : list (entry V)) (slots : list (slot V)) (cd : coding V) (c : cfg).

(* what decoding of the current IE [it] into the entry [e], which holds [s0], and going on from there makes of the data; [P]: going
   on with the next entry, [J]: with the next entry for the same tag *)
Definition goes_on (P : list item -> list (slot V) -> Prop) (J : item -> list item -> list (slot V) -> Prop) c (rest : list N) (en : ending) (e : coding V) (s0 : slot V) (it : item)
  (items : list item) (out : list (slot V)) : Prop :=
  exists run items2 vs sl, items = run ++ items2 /\ out = (s0 ++ vs) :: sl /\ Forall (fun it : item => has_tag e (fst it)) run
    /\ Forall2 (gives c true rest e) (it :: run) vs
    /\ match h_multi (head e) with
       | None => run = [] /\ P items2 sl
       | Some (mx, _) =>
         (lenN s0 + lenN (it :: run) <= mx /\ match next_tag items2 en with Some t => other_tag e t | None => True end /\ P items2 sl) \/
         (lenN s0 + lenN (it :: run) = mx /\ exists it' items3, items2 = it' :: items3 /\ has_tag e (fst it') /\ J it' items3 sl)
       end.

Lemma ord_goes_on Tail c d rest en (e : coding V) es slots (P : list item -> list (slot V) -> Prop) (J : item -> list item -> list (slot V) -> Prop) :
  cfg_ok c -> tail_closed Tail -> Tail rest -> entry_local Tail c true (entry_of e) ->
  (forall fuel g items sl, (length es + length items < fuel)%nat -> aheads c d rest g items en -> (ord_loop fuel MOuter c es g slots = Ok sl <-> P items sl)) ->
  (forall fuel g it items sl, (length es + length items < fuel)%nat -> aheads c d rest g items en -> cur g rest it -> (ord_loop fuel MJump c es g slots = Ok sl <-> J it items sl)) ->
  forall items it s0 fuel mode g out,
  has_tag e (fst it) -> (h_multi (head e) = None -> s0 = []) -> match h_multi (head e) with Some (mx, _) => mx <=? lenN s0 | None => false end = false ->
  mode <> MOuter -> aheads c d rest g items en -> cur g rest it -> (S (length es) + length items < fuel)%nat ->
  (ord_loop fuel mode c (entry_of e :: es) g (s0 :: slots) = Ok out <-> goes_on P J c rest en e s0 it items out).
Proof.
  intros Hok Htc Hr Hloc Hout Hjump. unfold entry_local in Hloc. cbn [entry_of e_dec] in Hloc. unfold has_tag.
  induction items as [|it2 items IH]; intros it s0 fuel mode g out Ht Hs0 Hfull Hmode Ha Hcu Hf; (destruct fuel as [|f]; [lia|]).
  all: match goal with |- (?L = _) <-> _ => assert (EL : L = (v <- dec_coding e c true (snd it ++ rest) (lenN (snd it)) ;;
        let s' := match h_multi (head e) with Some _ => s0 ++ [v] | None => [v] end in
        match h_multi (head e) with
        | None => r <- ord_loop f MOuter c es g slots ;; Ok (s' :: r)
        | Some _ =>
          match load_peek_tag c g with
          | UB u => UB u
          | Err _ => r <- ord_loop f MOuter c es g slots ;; Ok (s' :: r)
          | Ok peek =>
            if negb (ti_match peek (ld_ti g)) then r <- ord_loop f MOuter c es g slots ;; Ok (s' :: r)
            else
              match load_next c g with
              | (_, Err e) => Err e
              | (_, UB u) => UB u
              | (g', Ok _) => ord_loop f MInner c (entry_of e :: es) g' (s' :: slots)
              end
          end
        end)) end.
  1, 3: destruct (cu_val _ _ _ Hcu) as (w & r & Hv & Hm); cbn [ord_loop]; cbn [e_h entry_of e_dec]; rewrite Hfull, Hv, Hm, (cu_len _ _ _ Hcu), (cu_ti _ _ _ Hcu);
    rewrite (Hloc (snd it) (r ++ rest) rest (Htc _ _ Hr) Hr); destruct mode; [congruence|reflexivity|]; rewrite ti_match_sym, Ht; reflexivity.
  all: rewrite EL; clear EL Hmode mode; cbv zeta.
  all: (destruct (dec_coding e c true (snd it ++ rest) (lenN (snd it))) as [v|er|u] eqn:Ed; cbn [bind];
      [|split; [discriminate|intros (run & i2 & vs & sl & _ & _ & _ & A & _); inversion A as [|? ? ? ? A1 A2]; subst; unfold gives in A1; congruence]
       |split; [discriminate|intros (run & i2 & vs & sl & _ & _ & _ & A & _); inversion A as [|? ? ? ? A1 A2]; subst; unfold gives in A1; congruence]]).
  all: pose proof (aheads_peek _ _ _ _ _ _ Hok Ha) as Hpk.
  - assert (Q : forall s1 : slot V, (r0 <- ord_loop f MOuter c es g slots;; Ok (s1 :: r0)) = Ok out <-> exists sl, out = s1 :: sl /\ P [] sl).
    { intros s1. split.
      - intros H. apply bind_ok in H as (sl & H1 & H2). injection H2 as <-. exists sl. split; [reflexivity|]. apply (Hout f g []); [cbn in *; lia|exact Ha|exact H1].
      - intros (sl & -> & H). apply (Hout f g []) in H; [|cbn in *; lia|exact Ha]. rewrite H. reflexivity. }
    destruct (h_multi (head e)) as [[mx mand]|] eqn:Em.
    + assert (DONE : match next_tag [] en with Some t => other_tag e t | None => True end -> (r0 <- ord_loop f MOuter c es g slots;; Ok ((s0 ++ [v]) :: r0)) = Ok out <-> goes_on P J c rest en e s0 it [] out).
      { intros Hn. rewrite Q. unfold goes_on. rewrite Em. split.
        - intros (sl & -> & H). exists [], [], [v], sl. split; [reflexivity|]. split; [reflexivity|]. split; [constructor|]. split; [constructor; [exact Ed|constructor]|].
          left. split; [rewrite lenN_cons, lenN_nil; lia|]. split; [exact Hn|exact H].
        - intros (run & i2 & vs & sl & A & -> & _ & B & C). destruct run; [|discriminate]. cbn [app] in A. subst i2. inversion B as [|? ? ? ? B1 B2]; subst. inversion B2; subst.
          exists sl. split; [unfold gives in B1; rewrite Ed in B1; injection B1 as <-; reflexivity|]. destruct C as [(_ & _ & C)|(_ & it' & i3 & C & _)]; [exact C|discriminate]. }
      destruct (next_tag [] en) as [t|] eqn:En; [|destruct Hpk as (er & ->); exact (DONE I)].
      rewrite Hpk, (cu_ti _ _ _ Hcu).
      assert (Et : ti_match t (fst it) = ti_match (h_ti (head e)) t).
      { destruct (ti_match (h_ti (head e)) t) eqn:E1; [rewrite ti_match_sym in E1; exact (ti_match_trans _ _ _ E1 Ht)|].
        destruct (ti_match t (fst it)) eqn:E2; [|reflexivity]. rewrite ti_match_sym in E2. rewrite (ti_match_trans _ _ _ Ht E2) in E1. discriminate. }
      rewrite Et. destruct (ti_match (h_ti (head e)) t) eqn:Em2; cbn [negb]; [|exact (DONE Em2)].
      cbn [next_tag] in En. destruct en as [|er t']; [discriminate|]. pose proof (aheads_nil _ _ _ _ _ Hok Ha) as [(g' & ->) _]. split; [discriminate|].
      intros (run & i2 & vs & sl & A & _ & _ & _ & C). rewrite Em in C. destruct run; [|discriminate]. cbn [app] in A. subst i2.
      destruct C as [(_ & C & _)|(_ & it' & i3 & C & _)]; [|discriminate]. cbn [next_tag] in C. subst t'. unfold other_tag in C. congruence.
    + rewrite Q. unfold goes_on. rewrite Em, (Hs0 eq_refl). split.
      * intros (sl & -> & H). exists [], [], [v], sl. split; [reflexivity|]. split; [reflexivity|]. split; [constructor|]. split; [constructor; [exact Ed|constructor]|]. split; [reflexivity|exact H].
      * intros (run & i2 & vs & sl & A & -> & _ & B & -> & C). cbn [app] in A. subst i2. inversion B as [|? ? ? ? B1 B2]; subst. inversion B2; subst.
        exists sl. split; [|exact C]. unfold gives in B1. rewrite Ed in B1. injection B1 as <-. reflexivity.
  - assert (Q : forall s1 : slot V, (r0 <- ord_loop f MOuter c es g slots;; Ok (s1 :: r0)) = Ok out <-> exists sl, out = s1 :: sl /\ P (it2 :: items) sl).
    { intros s1. split.
      - intros H. apply bind_ok in H as (sl & H1 & H2). injection H2 as <-. exists sl. split; [reflexivity|]. apply (Hout f g (it2 :: items)); [cbn in *; lia|exact Ha|exact H1].
      - intros (sl & -> & H). apply (Hout f g (it2 :: items)) in H; [|cbn in *; lia|exact Ha]. rewrite H. reflexivity. }
    cbn [next_tag] in Hpk. destruct (h_multi (head e)) as [[mx mand]|] eqn:Em.
    + rewrite Hpk, (cu_ti _ _ _ Hcu).
      assert (Et : ti_match (fst it2) (fst it) = ti_match (h_ti (head e)) (fst it2)).
      { destruct (ti_match (h_ti (head e)) (fst it2)) eqn:E1.
        - rewrite ti_match_sym in E1. exact (ti_match_trans _ _ _ E1 Ht).
        - destruct (ti_match (fst it2) (fst it)) eqn:E2; [|reflexivity]. rewrite ti_match_sym in E2. rewrite (ti_match_trans _ _ _ Ht E2) in E1. discriminate. }
      rewrite Et. destruct (ti_match (h_ti (head e)) (fst it2)) eqn:E2; cbn [negb].
      * destruct (aheads_cons _ _ _ _ _ _ _ Hok Ha) as (g' & -> & Ha' & Hcu' & _ & _).
        destruct (mx <=? lenN (s0 ++ [v])) eqn:Efull2.
        -- destruct f as [|f']; [cbn in Hf; lia|]. cbn [ord_loop]. cbn [e_h entry_of]. rewrite Em, Efull2.
           assert (Emx : lenN s0 + 1 = mx) by (rewrite lenN_app, lenN_cons, lenN_nil in Efull2; lia).
           unfold goes_on. rewrite Em. split.
           ++ intros H. apply bind_ok in H as (sl & H1 & H2). injection H2 as <-. exists [], (it2 :: items), [v], sl. split; [reflexivity|]. split; [reflexivity|]. split; [constructor|].
              split; [constructor; [exact Ed|constructor]|]. right. split; [rewrite lenN_cons, lenN_nil; lia|]. exists it2, items. split; [reflexivity|]. split; [exact E2|].
              apply (Hjump f' g' it2 items); [cbn in Hf; lia|exact Ha'|exact Hcu'|exact H1].
           ++ intros (run & i2 & vs & sl & A & -> & B & C & D). inversion C as [|? v1 ? ? C1 C2]; subst.
              assert (run = []) as -> by (destruct run; [reflexivity|]; rewrite !lenN_cons in D; lia). inversion C2; subst. cbn [app] in A. subst i2.
              destruct D as [(_ & D & _)|(_ & it' & i3 & [= <- <-] & D1 & D2)]; [cbn [next_tag] in D; unfold other_tag in D; congruence|].
              apply (Hjump f' g' it2 items) in D2; [|cbn in Hf; lia|exact Ha'|exact Hcu']. rewrite D2. cbn [bind]. unfold gives in C1. rewrite Ed in C1. injection C1 as <-. reflexivity.
        -- rewrite (IH it2 (s0 ++ [v]) f MInner g' out E2 ltac:(discriminate) Efull2 ltac:(discriminate) Ha' Hcu' ltac:(cbn in Hf; lia)). unfold goes_on. rewrite Em. split.
           ++ intros (run & i2 & vs & sl & -> & -> & A & B & C). exists (it2 :: run), i2, (v :: vs), sl. rewrite <- app_assoc. split; [reflexivity|]. split; [reflexivity|].
              split; [constructor; assumption|]. split; [constructor; assumption|]. rewrite lenN_app, !lenN_cons, lenN_nil in *.
              destruct C as [(C1 & C2 & C3)|(C1 & C2)]; [left; split; [lia|]; split; assumption|right; split; [lia|assumption]].
           ++ intros (run & i2 & vs & sl & A & -> & B & C & D). destruct run as [|x run].
              { exfalso. cbn [app] in A. subst i2. rewrite lenN_app, !lenN_cons, lenN_nil in *.
                destruct D as [(_ & D & _)|(D & _)]; [cbn [next_tag] in D; unfold other_tag in D; congruence|lia]. }
              cbn [app] in A. injection A as <- ->. inversion B; subst. inversion C as [|? ? ? ? C1 C2]; subst.
              exists run, i2, l', sl. rewrite <- app_assoc. cbn [app]. split; [reflexivity|]. unfold gives in C1. rewrite Ed in C1. injection C1 as <-. split; [reflexivity|].
              split; [assumption|]. split; [assumption|]. rewrite lenN_app, !lenN_cons, lenN_nil in *.
              destruct D as [(D1 & D2 & D3)|(D1 & D2)]; [left; split; [lia|]; split; assumption|right; split; [lia|assumption]].
      * rewrite Q. unfold goes_on. rewrite Em. split.
        -- intros (sl & -> & H). exists [], (it2 :: items), [v], sl. split; [reflexivity|]. split; [reflexivity|]. split; [constructor|]. split; [constructor; [exact Ed|constructor]|].
           left. split; [rewrite lenN_cons, lenN_nil; lia|]. split; [exact E2|exact H].
        -- intros (run & i2 & vs & sl & A & -> & B & C & D). destruct run as [|x run]; [|cbn [app] in A; injection A as <- _; inversion B; congruence].
           cbn [app] in A. subst i2. inversion C as [|? ? ? ? C1 C2]; subst. inversion C2; subst. exists sl. unfold gives in C1. rewrite Ed in C1. injection C1 as <-. split; [reflexivity|].
           destruct D as [(_ & _ & D)|(_ & it' & i3 & [= <- <-] & D & _)]; [exact D|congruence].
    + rewrite Q. unfold goes_on. rewrite Em, (Hs0 eq_refl). split.
      * intros (sl & -> & H). exists [], (it2 :: items), [v], sl. split; [reflexivity|]. split; [reflexivity|]. split; [constructor|]. split; [constructor; [exact Ed|constructor]|]. split; [reflexivity|exact H].
      * intros (run & i2 & vs & sl & A & -> & _ & B & -> & C). cbn [app] in A. subst i2. inversion B as [|? ? ? ? B1 B2]; subst. inversion B2; subst.
        exists sl. split; [|exact C]. unfold gives in B1. rewrite Ed in B1. injection B1 as <-. reflexivity.
Qed.

(* the IE [it] goes to the next entry for its tag *)
Definition jumps c rest en (ies : list (coding V)) (it : item) (items : list item) (sl : list (slot V)) : Prop :=
  exists ies1 d' ies2 sl2, ies = ies1 ++ d' :: ies2 /\ sl = map (fun _ => []) ies1 ++ sl2 /\ Forall (fun d1 => other_tag d1 (fst it)) ies1 /\ has_tag d' (fst it) /\
    fills_ordered c rest en (d' :: ies2) (it :: items) sl2.

Lemma other_split (e : coding V) a x b a' y b' : Forall (fun it : item => other_tag e (fst it)) a -> has_tag e (fst x) ->
  Forall (fun it : item => other_tag e (fst it)) a' -> has_tag e (fst y) -> a ++ x :: b = a' ++ y :: b' -> a = a' /\ x = y /\ b = b'.
Proof.
  unfold other_tag, has_tag. intros Ha Hx Ha' Hy. revert a' Ha'. induction Ha as [|k a K Ha IH]; intros a' Ha' Q; (destruct a' as [|k' a']; cbn [app] in Q).
  - injection Q as <- <-. repeat split; reflexivity.
  - injection Q as <- _. inversion Ha'; congruence.
  - injection Q as <- _. congruence.
  - injection Q as <- Q. inversion Ha'; subst. destruct (IH a' ltac:(assumption) Q) as (-> & -> & ->). repeat split; reflexivity.
Qed.

(* the rules for an entry one of whose IEs comes *)
Lemma fills_present c rest en (e : coding V) ies skipped it items out :
  match h_multi (head e) with Some (mx, _) => 0 < mx | None => True end -> Forall (fun it : item => other_tag e (fst it)) skipped -> has_tag e (fst it) ->
  (fills_ordered c rest en (e :: ies) (skipped ++ it :: items) out <-> goes_on (fills_ordered c rest en ies) (jumps c rest en ies) c rest en e [] it items out).
Proof.
  intros Hmx Hs Ht. split.
  - intros H. remember (skipped ++ it :: items) as all eqn:Eall. remember (e :: ies) as tab eqn:Etab. destruct H as
      [items0|d0 ies0 items0 slots0 S1 S2 S3 S4|d0 ies0 sk0 it0 items0 v slots0 S1 S2 S3 S4 S5|d0 ies0 mx mand sk0 run items0 s slots0 S1 S2 S3 S4 S5 S6 S7 S8
       |d0 ies1 d' ies2 mx mand sk0 run it0 items0 s slots0 S1 S2 S3 S4 S5 S6 S7 S8]; [discriminate| | | |]; injection Etab as -> Eies.
    + exfalso. subst items0. rewrite Forall_app in S2. destruct S2 as [_ S2]. inversion S2. unfold has_tag, other_tag in *. congruence.
    + subst ies0. destruct (other_split _ _ _ _ _ _ _ S2 S3 Hs Ht Eall) as (-> & -> & ->). exists [], items, [v], slots0. rewrite S1. split; [reflexivity|]. split; [reflexivity|].
      split; [constructor|]. split; [constructor; [exact S4|constructor]|]. split; [reflexivity|exact S5].
    + subst ies0. destruct run as [|x run]; [congruence|]. inversion S4 as [|? ? S41 S42]; subst. destruct (other_split _ _ _ _ _ _ _ S2 S41 Hs Ht Eall) as (-> & -> & <-).
      exists run, items0, s, slots0. rewrite S1. split; [reflexivity|]. split; [reflexivity|]. split; [exact S42|]. split; [exact S7|]. left. split; [rewrite lenN_nil, N.add_0_l; exact S5|]. split; assumption.
    + rewrite S1 in Hmx. destruct run as [|x run]; [rewrite lenN_nil in S4; lia|]. inversion S3 as [|? ? S31 S32]; subst. rewrite Forall_app in S32. destruct S32 as [S32 S33]. inversion S33; subst.
      destruct (other_split _ _ _ _ _ _ _ S2 S31 Hs Ht Eall) as (-> & -> & <-). exists run, (it0 :: items0), s, (map (fun _ => []) ies1 ++ slots0). rewrite S1. split; [reflexivity|].
      split; [reflexivity|]. split; [exact S32|]. split; [exact S5|]. right. split; [rewrite lenN_nil, N.add_0_l; first [exact S4|reflexivity]|]. exists it0, items0. split; [reflexivity|]. split; [assumption|].
      exists ies1, d', ies2, slots0. split; [reflexivity|]. split; [reflexivity|]. split; [exact S6|]. split; [exact S7|exact S8].
  - intros (run & i2 & vs & sl & -> & -> & A & B & C). cbn [app]. destruct (h_multi (head e)) as [[mx mand]|] eqn:Em.
    + change (skipped ++ it :: run ++ i2) with (skipped ++ (it :: run) ++ i2). rewrite lenN_nil in C. destruct C as [(C1 & C2 & C3)|(C1 & it' & i3 & -> & C2 & (ies1 & d' & ies2 & sl2 & -> & -> & D1 & D2 & D3))].
      * eapply FO_run; [exact Em|exact Hs|discriminate|constructor; assumption|rewrite N.add_0_l in C1; exact C1|exact C2|exact B|exact C3].
      * eapply FO_jump; [exact Em|exact Hs| |rewrite N.add_0_l in C1; exact C1|exact B|exact D1|exact D2|exact D3]. rewrite Forall_app. split; [constructor; assumption|constructor; [exact C2|constructor]].
    + destruct C as [-> C]. cbn [app]. inversion B as [|? v ? ? B1 B2]; subst. inversion B2; subst. apply FO_single; assumption.
Qed.

Lemma ord_fills Tail c d rest en : cfg_ok c -> tail_closed Tail -> Tail rest ->
  forall ies, Forall (fun e => entry_local Tail c true (entry_of e)) ies -> maxes_pos ies ->
  (forall fuel g items slots, (length (map entry_of ies) + length items < fuel)%nat -> aheads c d rest g items en ->
    (ord_loop fuel MOuter c (map entry_of ies) g (map (fun _ => []) ies) = Ok slots <-> fills_ordered c rest en ies items slots)) /\
  (forall fuel g it items slots, (length (map entry_of ies) + length items < fuel)%nat -> aheads c d rest g items en -> cur g rest it ->
    (ord_loop fuel MJump c (map entry_of ies) g (map (fun _ => []) ies) = Ok slots <-> jumps c rest en ies it items slots)).
Proof.
  intros Hok Htc Hr. induction ies as [|e ies IH]; intros Hloc Hmx.
  - split; intros fuel g; intros; (destruct fuel; [lia|]); cbn [map ord_loop].
    + split; [intros [= <-]; constructor|intros H1; inversion H1; reflexivity].
    + split; [discriminate|]. intros ([|? ?] & d' & ies2 & sl2 & E & _); discriminate.
  - inversion Hloc as [|? ? L1 L2]; subst. assert (M2 : maxes_pos ies) by (unfold maxes_pos in *; inversion Hmx; assumption).
    assert (M1 : match h_multi (head e) with Some (mx, _) => 0 < mx | None => True end) by (unfold maxes_pos in *; inversion Hmx as [|? ? X Y]; subst; unfold max_pos in X; destruct (h_multi (head e)) as [[mx mand]|]; [lia|exact I]).
    destruct (IH L2 M2) as [IHo IHj]. clear IH.
    pose proof (ord_goes_on Tail c d rest en e (map entry_of ies) (map (fun _ => []) ies) (fills_ordered c rest en ies) (jumps c rest en ies) Hok Htc Hr L1 IHo IHj) as G.
    assert (F0 : match h_multi (head e) with Some (mx, _) => mx <=? lenN (@nil (val V)) | None => false end = false).
    { destruct (h_multi (head e)) as [[mx mand]|]; [|reflexivity]. rewrite lenN_nil. lia. }
    split.
    + intros fuel g items slots Hf Ha. destruct fuel as [|f]; [lia|]. cbn [map length] in *. cbn [ord_loop]. cbn [e_h entry_of].
      pose proof (aheads_by_tag c d rest (h_ti (head e)) g _ _ Hok Ha) as Hb.
      destruct (first_match (h_ti (head e)) items) as [[[a x] b]|] eqn:Ef.
      * destruct (first_match_some _ _ _ _ _ Ef) as (-> & F1 & F2). destruct Hb as (g' & -> & Ha' & Hcu & _). rewrite ti_match_sym in F2.
        change (mkEntry (head e) (dec_coding e)) with (entry_of e).
        rewrite (G b x [] f MInner g' slots F2 ltac:(reflexivity) F0 ltac:(discriminate) Ha' Hcu ltac:(rewrite app_length in Hf; cbn [length] in Hf; lia)).
        symmetry. apply fills_present; [exact M1| |exact F2]. eapply Forall_impl; [|exact F1]. unfold other_tag. intros y Hy. rewrite ti_match_sym. exact Hy.
      * rewrite Hb. assert (Na : Forall (fun it : item => other_tag e (fst it)) items).
        { eapply Forall_impl; [|exact (first_match_no _ _ Ef)]. unfold other_tag. intros y Hy. rewrite ti_match_sym. exact Hy. }
        assert (INV : fills_ordered c rest en (e :: ies) items slots <-> searchable en = true /\ low_of (head e) = 0 /\ exists sl, slots = [] :: sl /\ fills_ordered c rest en ies items sl).
        { split; [|intros (A & B & sl & -> & C); constructor; assumption].
          intros H. inversion H as [|? ? ? sl S1 S2 S3 S4|? ? sk it its v sl S1 S2 S3 S4 S5|? ? ? ? sk run its s sl S1 S2 S3 S4 S5 S6 S7 S8|? ies1 d' ies2 ? ? sk run it its s sl S1 S2 S3 S4 S5 S6 S7 S8]; subst.
          - split; [assumption|]. split; [assumption|]. eauto.
          - exfalso. rewrite Forall_app in Na. destruct Na as [_ Na]. inversion Na. unfold has_tag, other_tag in *. congruence.
          - exfalso. rewrite !Forall_app in Na. destruct Na as (_ & Na & _). destruct run; [congruence|]. inversion Na; inversion S4. unfold has_tag, other_tag in *. congruence.
          - exfalso. rewrite !Forall_app in Na. destruct Na as (_ & _ & Na). rewrite Forall_app in S3. destruct S3 as [_ S3]. inversion Na; inversion S3. unfold has_tag, other_tag in *. congruence. }
        rewrite INV. clear INV.
        assert (El : negb (h_pres (head e)) && match h_multi (head e) with Some (_, mand) => lenN (@nil (val V)) <? mand | None => true end = negb (low_of (head e) =? 0)).
        { unfold low_of. rewrite lenN_nil. destruct (h_pres (head e)); [reflexivity|]. cbn [negb andb]. destruct (h_multi (head e)) as [[mx mand]|]; [lia|reflexivity]. }
        assert (ABS : (if negb (h_pres (head e)) && match h_multi (head e) with Some (_, mand) => lenN (@nil (val V)) <? mand | None => true end then Err ENOENT
            else r <- ord_loop f MOuter c (map entry_of ies) g (map (fun _ => []) ies);; Ok ((if h_pres (head e) then [] else []) :: r)) = Ok slots
          <-> low_of (head e) = 0 /\ exists sl, slots = [] :: sl /\ fills_ordered c rest en ies items sl).
        { rewrite El. destruct (N.eqb_spec (low_of (head e)) 0) as [E0|E0]; cbn [negb]; [|split; [discriminate|intros (A & _); congruence]].
          replace (if h_pres (head e) then [] else []) with (@nil (val V)) by (destruct (h_pres (head e)); reflexivity). split.
          - intros H. apply bind_ok in H as (sl & H1 & H2). injection H2 as <-. split; [exact E0|]. exists sl. split; [reflexivity|]. apply (IHo f g); [lia|exact Ha|exact H1].
          - intros (_ & sl & -> & H). apply (IHo f g) in H; [|lia|exact Ha]. rewrite H. reflexivity. }
        destruct en as [|er t]; cbn [searchable].
        -- rewrite ABS. tauto.
        -- destruct er; try (split; [discriminate|intros (A & _); discriminate]). rewrite ABS. tauto.
    + intros fuel g it items slots Hf Ha Hcu. cbn [map length] in *. destruct (ti_match (h_ti (head e)) (fst it)) eqn:Et.
      * rewrite (G items it [] fuel MJump g slots Et ltac:(reflexivity) F0 ltac:(discriminate) Ha Hcu ltac:(lia)).
        rewrite <- (fills_present c rest en e ies [] it items slots M1 ltac:(constructor) Et). unfold jumps. split.
        -- intros H. exists [], e, ies, slots. split; [reflexivity|]. split; [reflexivity|]. split; [constructor|]. split; [exact Et|exact H].
        -- intros (ies1 & d' & ies2 & sl2 & E & -> & A & B & C). destruct ies1 as [|x ies1]; cbn [app map] in *; [injection E as <- <-; exact C|].
           injection E as <- _. inversion A. unfold other_tag in *. congruence.
      * destruct fuel as [|f]; [lia|]. cbn [ord_loop]. cbn [e_h entry_of]. rewrite (cu_ti _ _ _ Hcu), ti_match_sym, Et. split.
        -- intros H. apply bind_ok in H as (sl & H1 & H2). injection H2 as <-. apply (IHj f g it items) in H1; [|lia|exact Ha|exact Hcu].
           destruct H1 as (ies1 & d' & ies2 & sl2 & -> & -> & A & B & C). exists (e :: ies1), d', ies2, sl2. split; [reflexivity|]. split; [reflexivity|]. split; [constructor; assumption|]. split; assumption.
        -- intros (ies1 & d' & ies2 & sl2 & E & -> & A & B & C). destruct ies1 as [|x ies1]; cbn [app map] in *; [injection E as <- <-; unfold has_tag in B; congruence|].
           injection E as <- ->. inversion A; subst. assert (J : jumps c rest en (ies1 ++ d' :: ies2) it items (map (fun _ => []) ies1 ++ sl2)).
           { exists ies1, d', ies2, sl2. split; [reflexivity|]. split; [reflexivity|]. split; [assumption|]. split; assumption. }
           apply (IHj f g it items) in J; [|lia|exact Ha|exact Hcu]. rewrite J. reflexivity.
Qed.

Theorem decode_ordered_any Tail c (ies : list (coding V)) d rest items en slots :
  cfg_ok c -> tail_closed Tail -> Tail rest -> Forall (all_leaves (leaf_local Tail)) ies -> Forall (all_cfgs cfg_ok) ies -> maxes_pos ies ->
  reads c d items en ->
  (gtlvs_decode c true (Some ies) (d ++ rest) (lenN d) = Ok slots <-> fills_ordered c rest en ies items slots).
Proof.
  intros Hok Htc Hr Hl Hc Hm R. cbn [gtlvs_decode decode_entries]. unfold decode_ordered. rewrite budget_app, map_map.
  apply (reads_scanned c d _ _ Hok) in R. pose proof (aheads_start c d rest _ _ R) as Ha. pose proof (aheads_length _ _ _ _ _ _ Hok Ha) as Hlen.
  assert (HL : Forall (fun e => entry_local Tail c true (entry_of e)) ies).
  { rewrite Forall_forall in *. intros x Hx. apply dec_coding_local; auto. }
  apply (proj1 (ord_fills Tail c d rest en Hok Htc Hr ies HL Hm)); [|exact Ha].
  unfold lenN in Hlen. unfold ld_pos in Hlen. cbn [load_start ld_val] in Hlen. lia.
Qed.
End OR.
