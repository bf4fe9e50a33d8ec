(* RepErrProofs.v -- C99: the error code of decoding of any data with any table *)
From Verif Require Import Base BaseProofs GtlvModel GtlvSpec GtlvProofs DecEncModel DecEncSpec DecEncProofs DecOrdProofs DecCharProofs RtProofs OrdMandProofs OrdCharProofs RepSpec RepProofs RepUnordProofs ErrnoProofs.

Lemma bind_cons_err {A} (r : res (list A)) (x : A) e : bind r (fun l => Ok (x :: l)) = Err e <-> r = Err e.
Proof. destruct r; cbn [bind]; split; congruence. Qed.

Section OE.
Context {V : Type}.
Implicit Types (es : list (entry V)) (slots : list (slot V)) (cd : coding V) (c : cfg).
Variables (P : list item -> Prop) (J : item -> list item -> Prop) (c : cfg) (rest : list N) (en : ending) (er : errno) (e : coding V).

(* decoding of the current IE [it] into the entry [e], which holds [n] values, and going on from there fails with [er];
   [P]: going on with the next entry fails, [J]: with the next entry for the same tag *)
Definition ends_wrong (go_on : item -> list item -> Prop) (it : item) (items : list item) : Prop :=
  dec_coding e c true (snd it ++ rest) (lenN (snd it)) = Err er \/
  (exists v, gives c true rest e it v) /\
    match h_multi (head e) with
    | None => P items
    | Some (mx, _) =>
      match items with
      | [] => match en with Broken x (Some t) => if ti_match (h_ti (head e)) t then x = er else P [] | _ => P [] end
      | it' :: items' => if ti_match (h_ti (head e)) (fst it') then go_on it' items' else P items
      end
    end.
Definition limit : N := match h_multi (head e) with Some (mx, _) => mx | None => 1 end.
Fixpoint goes_wrong (n : N) (it : item) (items : list item) {struct items} : Prop :=
  dec_coding e c true (snd it ++ rest) (lenN (snd it)) = Err er \/
  (exists v, gives c true rest e it v) /\
    match h_multi (head e) with
    | None => P items
    | Some (mx, _) =>
      match items with
      | [] => match en with Broken x (Some t) => if ti_match (h_ti (head e)) t then x = er else P [] | _ => P [] end
      | it' :: items' => if ti_match (h_ti (head e)) (fst it') then if n + 1 <? mx then goes_wrong (n + 1) it' items' else J it' items' else P items
      end
    end.

(* after a run of IEs *)
Lemma wrong_after vs run : forall n x items, h_multi (head e) <> None -> Forall2 (gives c true rest e) run vs -> Forall (fun it : item => has_tag e (fst it)) (run ++ [x]) ->
  n + lenN run < limit -> goes_wrong (n + lenN run) x items -> match run ++ x :: items with it :: l => goes_wrong n it l | [] => False end.
Proof.
  revert vs. induction run as [|y run IH]; intros vs n x items Hm Hg Ht Hn H; [rewrite lenN_nil, N.add_0_r in H; exact H|].
  inversion Hg as [|? v ? vs' G1 G2]; subst. cbn [app] in Ht. inversion Ht as [|? ? T1 T2]; subst. rewrite lenN_cons in *.
  specialize (IH vs' (n + 1) x items Hm G2 T2 ltac:(lia) ltac:(replace (n + 1 + lenN run) with (n + (1 + lenN run)) by lia; exact H)).
  assert (N1 : n + 1 < limit) by lia.
  assert (X : forall z l, has_tag e (fst z) -> goes_wrong (n + 1) z l -> goes_wrong n y (z :: l)).
  { intros z l Tz Gz. cbn [goes_wrong]. right. split; [exists v; exact G1|]. unfold limit in *. unfold has_tag in Tz. destruct (h_multi (head e)) as [[mx mand]|]; [|congruence]. rewrite Tz.
    destruct (N.ltb_spec (n + 1) mx); [exact Gz|lia]. }
  destruct run as [|z run]; cbn [app] in *; (apply X; [inversion T2; assumption|exact IH]).
Qed.
Lemma wrong_split : forall items n it, n < limit -> (h_multi (head e) = None -> n = 0) -> has_tag e (fst it) -> goes_wrong n it items ->
  exists run x items2 vs, it :: items = run ++ x :: items2 /\ Forall (fun it : item => has_tag e (fst it)) (run ++ [x]) /\ Forall2 (gives c true rest e) run vs /\ n + lenN run < limit /\
    (h_multi (head e) = None -> run = []) /\
    ends_wrong (fun it' items' => n + lenN run + 1 = limit /\ J it' items') x items2.
Proof.
  induction items as [|it2 items IH]; intros n it Hn H0 Ht H; cbn [goes_wrong] in H.
  - exists [], it, [], []. split; [reflexivity|]. split; [constructor; [exact Ht|constructor]|]. split; [constructor|]. rewrite lenN_nil. split; [lia|]. split; [reflexivity|]. exact H.
  - destruct H as [H|[(v & Hv) H]].
    { exists [], it, (it2 :: items), []. split; [reflexivity|]. split; [constructor; [exact Ht|constructor]|]. split; [constructor|]. rewrite lenN_nil. split; [lia|]. split; [reflexivity|]. left. exact H. }
    destruct (h_multi (head e)) as [[mx mand]|] eqn:Em.
    + assert (Hlim : limit = mx) by (unfold limit; rewrite Em; reflexivity). destruct (ti_match (h_ti (head e)) (fst it2)) eqn:Et.
      * destruct (N.ltb_spec (n + 1) mx) as [Hlt|Hge].
        -- destruct (IH (n + 1) it2 ltac:(lia) ltac:(discriminate) Et H) as (run & x & i2 & vs & Q & A & B & C & D & F).
           exists (it :: run), x, i2, (v :: vs). split; [exact (f_equal (cons it) Q)|]. split; [constructor; assumption|]. split; [constructor; assumption|].
           rewrite lenN_cons. split; [lia|]. split; [discriminate|]. replace (n + (1 + lenN run) + 1) with (n + 1 + lenN run + 1) by lia. exact F.
        -- exists [], it, (it2 :: items), []. split; [reflexivity|]. split; [constructor; [exact Ht|constructor]|]. split; [constructor|]. rewrite lenN_nil. split; [lia|]. split; [reflexivity|].
           right. split; [exists v; exact Hv|]. rewrite Em, Et. split; [lia|exact H].
      * exists [], it, (it2 :: items), []. split; [reflexivity|]. split; [constructor; [exact Ht|constructor]|]. split; [constructor|]. rewrite lenN_nil. split; [lia|]. split; [reflexivity|].
        right. split; [exists v; exact Hv|]. rewrite Em, Et. exact H.
    + exists [], it, (it2 :: items), []. split; [reflexivity|]. split; [constructor; [exact Ht|constructor]|]. split; [constructor|]. rewrite lenN_nil. split; [lia|]. split; [reflexivity|].
      right. split; [exists v; exact Hv|]. rewrite Em. exact H.
Qed.

Lemma ord_goes_wrong Tail d es slots :
  cfg_ok c -> tail_closed Tail -> Tail rest -> entry_local Tail c true (entry_of e) ->
  (forall fuel g items, (length es + length items < fuel)%nat -> aheads c d rest g items en -> (ord_loop fuel MOuter c es g slots = Err er <-> P items)) ->
  (forall fuel g it items, (length es + length items < fuel)%nat -> aheads c d rest g items en -> cur g rest it -> (ord_loop fuel MJump c es g slots = Err er <-> J it items)) ->
  forall items it s0 fuel mode g,
  has_tag e (fst it) -> (h_multi (head e) = None -> s0 = []) -> match h_multi (head e) with Some (mx, _) => mx <=? lenN s0 | None => false end = false ->
  mode <> MOuter -> aheads c d rest g items en -> cur g rest it -> (S (length es) + length items < fuel)%nat ->
  (ord_loop fuel mode c (entry_of e :: es) g (s0 :: slots) = Err er <-> goes_wrong (lenN s0) it items).
Proof.
  intros Hok Htc Hr Hloc Hout Hjump. unfold entry_local in Hloc. cbn [entry_of e_dec] in Hloc. unfold has_tag.
  induction items as [|it2 items IH]; intros it s0 fuel mode g Ht Hs0 Hfull Hmode Ha Hcu Hf; (destruct fuel as [|f]; [lia|]).
  all: match goal with |- (?L = _) <-> _ => assert (EL : L = (v <- dec_coding e c true (snd it ++ rest) (lenN (snd it)) ;;
        let s' := match h_multi (head e) with Some _ => s0 ++ [v] | None => [v] end in
        match h_multi (head e) with
        | None => r <- ord_loop f MOuter c es g slots ;; Ok (s' :: r)
        | Some _ =>
          match load_peek_tag c g with
          | UB u => UB u
          | Err _ => r <- ord_loop f MOuter c es g slots ;; Ok (s' :: r)
          | Ok peek =>
            if negb (ti_match peek (ld_ti g)) then r <- ord_loop f MOuter c es g slots ;; Ok (s' :: r)
            else
              match load_next c g with
              | (_, Err e) => Err e
              | (_, UB u) => UB u
              | (g', Ok _) => ord_loop f MInner c (entry_of e :: es) g' (s' :: slots)
              end
          end
        end)) end.
  1, 3: destruct (cu_val _ _ _ Hcu) as (w & r & Hv & Hm); cbn [ord_loop]; cbn [e_h entry_of e_dec]; rewrite Hfull, Hv, Hm, (cu_len _ _ _ Hcu), (cu_ti _ _ _ Hcu);
    rewrite (Hloc (snd it) (r ++ rest) rest (Htc _ _ Hr) Hr); destruct mode; [congruence|reflexivity|]; rewrite ti_match_sym, Ht; reflexivity.
  all: rewrite EL; clear EL Hmode mode; cbv zeta; cbn [goes_wrong]; unfold gives.
  all: destruct (dec_coding e c true (snd it ++ rest) (lenN (snd it))) as [v|er'|u]; cbn [bind];
      [|split; [intros [= ->]; left; reflexivity|intros [[= ->]|[(v & [=]) _]]; reflexivity]
       |split; [discriminate|intros [[=]|[(v & [=]) _]]]].
  all: assert (OKV : forall Q : Prop, Q <-> Ok v = Err er \/ (exists v0, Ok v = Ok v0) /\ Q) by (intros Q; split; [intros H; right; split; [exists v; reflexivity|exact H]|intros [[=]|[_ H]]; exact H]).
  all: rewrite <- OKV; clear OKV.
  all: pose proof (aheads_peek _ _ _ _ _ _ Hok Ha) as Hpk.
  - assert (Q : forall s1 : slot V, (r0 <- ord_loop f MOuter c es g slots;; Ok (s1 :: r0)) = Err er <-> P []).
    { intros s1. rewrite bind_cons_err. apply (Hout f g []); [cbn in *; lia|exact Ha]. }
    destruct (h_multi (head e)) as [[mx mand]|] eqn:Em; [|apply Q].
    destruct (next_tag [] en) as [t|] eqn:En.
    + cbn [next_tag] in En. destruct en as [|x t']; [discriminate|]. subst t'. rewrite Hpk, (cu_ti _ _ _ Hcu).
      assert (Et : ti_match t (fst it) = ti_match (h_ti (head e)) t).
      { destruct (ti_match (h_ti (head e)) t) eqn:E1; [rewrite ti_match_sym in E1; exact (ti_match_trans _ _ _ E1 Ht)|].
        destruct (ti_match t (fst it)) eqn:E2; [|reflexivity]. rewrite ti_match_sym in E2. rewrite (ti_match_trans _ _ _ Ht E2) in E1. discriminate. }
      rewrite Et. destruct (ti_match (h_ti (head e)) t); cbn [negb]; [|apply Q].
      pose proof (aheads_nil _ _ _ _ _ Hok Ha) as [(g' & ->) _]. split; [intros [= ->]; reflexivity|intros ->; reflexivity].
    + destruct Hpk as (er' & ->). cbn [next_tag] in En. destruct en as [|x [t|]]; [apply Q|discriminate|apply Q].
  - assert (Q : forall s1 : slot V, (r0 <- ord_loop f MOuter c es g slots;; Ok (s1 :: r0)) = Err er <-> P (it2 :: items)).
    { intros s1. rewrite bind_cons_err. apply (Hout f g (it2 :: items)); [cbn in *; lia|exact Ha]. }
    cbn [next_tag] in Hpk. destruct (h_multi (head e)) as [[mx mand]|] eqn:Em; [|apply Q].
    rewrite Hpk, (cu_ti _ _ _ Hcu).
    assert (Et : ti_match (fst it2) (fst it) = ti_match (h_ti (head e)) (fst it2)).
    { destruct (ti_match (h_ti (head e)) (fst it2)) eqn:E1.
      - rewrite ti_match_sym in E1. exact (ti_match_trans _ _ _ E1 Ht).
      - destruct (ti_match (fst it2) (fst it)) eqn:E2; [|reflexivity]. rewrite ti_match_sym in E2. rewrite (ti_match_trans _ _ _ Ht E2) in E1. discriminate. }
    rewrite Et. destruct (ti_match (h_ti (head e)) (fst it2)) eqn:E2; cbn [negb]; [|apply Q].
    destruct (aheads_cons _ _ _ _ _ _ _ Hok Ha) as (g' & -> & Ha' & Hcu' & _ & _).
    assert (El : lenN (s0 ++ [v]) = lenN s0 + 1) by (rewrite lenN_app, lenN_cons, lenN_nil; lia).
    destruct (N.ltb_spec (lenN s0 + 1) mx) as [Hlt|Hge].
    + rewrite (IH it2 (s0 ++ [v]) f MInner g' E2 ltac:(discriminate) ltac:(rewrite El; lia) ltac:(discriminate) Ha' Hcu' ltac:(cbn in Hf; lia)). rewrite El. reflexivity.
    + destruct f as [|f']; [cbn in Hf; lia|]. cbn [ord_loop]. cbn [e_h entry_of]. rewrite Em, El. destruct (N.leb_spec mx (lenN s0 + 1)); [|lia].
      rewrite bind_cons_err. apply (Hjump f' g' it2 items); [cbn in Hf; lia|exact Ha'|exact Hcu'].
Qed.
End OE.

Section OF.
Context {V : Type}.
Variables (c : cfg) (rest : list N) (en : ending) (er : errno).
(* the IE [it] goes to the next entry for its tag, which fails; or there is none *)
Definition jumps_wrong (ies : list (coding V)) (it : item) (items : list item) : Prop :=
  Forall (fun d1 => other_tag d1 (fst it)) ies /\ er = ENOTSUP \/
  exists ies1 d' ies2, ies = ies1 ++ d' :: ies2 /\ Forall (fun d1 => other_tag d1 (fst it)) ies1 /\ has_tag d' (fst it) /\ fails_ordered c rest en er (d' :: ies2) (it :: items).

Lemma fails_present (e : coding V) ies skipped it items :
  match h_multi (head e) with Some (mx, _) => 0 < mx | None => True end -> Forall (fun it : item => other_tag e (fst it)) skipped -> has_tag e (fst it) ->
  (fails_ordered c rest en er (e :: ies) (skipped ++ it :: items) <->
   goes_wrong (fails_ordered c rest en er ies) (jumps_wrong ies) c rest en er e 0 it items).
Proof.
  intros Hmx Hs Ht. set (P := fails_ordered c rest en er ies). set (J := jumps_wrong ies).
  assert (RUN : forall run x its vs, it :: items = run ++ x :: its -> (h_multi (head e) = None -> run = []) -> Forall2 (gives c true rest e) run vs ->
     Forall (fun it : item => has_tag e (fst it)) (run ++ [x]) -> lenN run < limit e -> goes_wrong P J c rest en er e (lenN run) x its -> goes_wrong P J c rest en er e 0 it items).
  { intros run x its vs Q N0 G T L W. destruct (h_multi (head e)) as [m|] eqn:Em.
    - assert (L' : 0 + lenN run < limit e) by (rewrite N.add_0_l; exact L). assert (M : h_multi (head e) <> None) by (rewrite Em; discriminate).
      pose proof (wrong_after P J c rest en er e vs run 0 x its M G T L' W) as H.
      change (match it :: items with it :: l => goes_wrong P J c rest en er e 0 it l | [] => False end). rewrite Q. exact H.
    - rewrite (N0 eq_refl) in *. cbn [app] in Q. injection Q as -> ->. exact W. }
  split.
  - intros H. remember (skipped ++ it :: items) as all eqn:Eall. remember (e :: ies) as tab eqn:Etab.
    destruct H as [d ies0 items0 t S1 S2 S3|d ies0 items0 S1 S2 S3 S4|d ies0 sk run x its vs S1 S2 S3 S4 S5|d ies0 mx mand sk run vs t S1 S2 S3 S4 S5 S6 S7 S8
      |d ies0 mx mand sk run x its vs S1 S2 S3 S4 S5 S6 S7|d ies0 items0 S1 S2 S3 S4|d ies0 sk x its v S1 S2 S3 S4 S5|d ies0 mx mand sk run its s S1 S2 S3 S4 S5 S6 S7 S8
      |d ies1 d' ies2 mx mand sk run x its s S1 S2 S3 S4 S5 S6 S7 S8]; injection Etab as -> Eies.
    all: try subst ies0.
    + exfalso. subst items0. rewrite Forall_app in S1. destruct S1 as [_ S1]. inversion S1. unfold has_tag, other_tag in *. congruence.
    + exfalso. subst items0. rewrite Forall_app in S1. destruct S1 as [_ S1]. inversion S1. unfold has_tag, other_tag in *. congruence.
    + destruct run as [|y run]; cbn [app] in *; inversion S2 as [|? ? S21 S22]; subst.
      * destruct (other_split _ _ _ _ _ _ _ S1 S21 Hs Ht Eall) as (-> & -> & ->). destruct items; left; exact S5.
      * destruct (other_split _ _ _ _ _ _ _ S1 S21 Hs Ht Eall) as (-> & -> & Q).
        eapply (RUN (it :: run) x its vs); [exact (f_equal (cons it) (eq_sym Q))| |exact S4|exact S2|exact S3|destruct its; left; exact S5].
        intros Em. rewrite Em, lenN_cons in S3. lia.
    + destruct (exists_last S3) as (run' & y & Erun). subst run. apply Forall2_app_inv_l in S6 as (vs1 & vs2 & G1 & G2 & _). inversion G2 as [|? v ? ? G3 _]; subst vs2 x l.
      assert (Q : it :: items = run' ++ [y] /\ skipped = sk).
      { destruct run' as [|z run']; cbn [app] in *; inversion S4; subst; destruct (other_split _ _ _ _ _ _ _ S2 ltac:(eassumption) Hs Ht Eall) as (-> & -> & ->); split; reflexivity. }
      destruct Q as [Q ->]. eapply (RUN run' y [] vs1); [exact Q|congruence|exact G1|exact S4|unfold limit; rewrite S1; rewrite lenN_app, lenN_cons, lenN_nil in S5; lia|].
      cbn [goes_wrong]. right. split; [exists v; exact G3|]. unfold has_tag in S8. rewrite S1, S7, S8. reflexivity.
    + assert (Q : it :: items = run ++ x :: its /\ skipped = sk).
      { destruct run as [|z run']; cbn [app] in *; inversion S3; subst; destruct (other_split _ _ _ _ _ _ _ S2 ltac:(eassumption) Hs Ht Eall) as (-> & -> & ->); split; reflexivity. }
      destruct Q as [Q ->]. rewrite S1 in Hmx. assert (run <> []) as Hr by (intros ->; rewrite lenN_nil in S4; lia). destruct (exists_last Hr) as (run' & y & Erun). subst run.
      apply Forall2_app_inv_l in S5 as (vs1 & vs2 & G1 & G2 & _). inversion G2 as [|? v ? ? G3 _]; subst vs2 x0 l. rewrite Forall_app in S3. destruct S3 as [S31 S32]. inversion S32; subst.
      rewrite lenN_app, lenN_cons, lenN_nil in *.
      rewrite <- app_assoc in Q. cbn [app] in Q. eapply (RUN run' y (x :: its) vs1); [exact Q|congruence|exact G1|exact S31|unfold limit; rewrite S1; lia|].
      cbn [goes_wrong]. right. split; [exists v; exact G3|]. rewrite S1. unfold has_tag in *. replace (ti_match (h_ti (head e)) (fst x)) with true by (symmetry; assumption).
      destruct (N.ltb_spec (lenN run' + 1) (lenN run' + (1 + 0))); [lia|]. left. split; [exact S6|exact S7].
    + exfalso. subst items0. rewrite Forall_app in S2. destruct S2 as [_ S2]. inversion S2. unfold has_tag, other_tag in *. congruence.
    + destruct (other_split _ _ _ _ _ _ _ S2 S3 Hs Ht Eall) as (-> & -> & ->). destruct items as [|i2 items]; cbn [goes_wrong]; right; (split; [exists v; exact S4|]); rewrite S1; exact S5.
    + destruct (exists_last S3) as (run' & y & Erun). subst run. apply Forall2_app_inv_l in S7 as (vs1 & vs2 & G1 & G2 & _). inversion G2 as [|? v ? ? G3 _]; subst vs2 x l.
      assert (Q : it :: items = run' ++ y :: its /\ skipped = sk).
      { rewrite <- app_assoc in Eall. destruct run' as [|z run']; cbn [app] in *; inversion S4; subst; destruct (other_split _ _ _ _ _ _ _ S2 ltac:(eassumption) Hs Ht Eall) as (-> & -> & ->); split; reflexivity. }
      destruct Q as [Q ->]. eapply (RUN run' y its vs1); [exact Q|congruence|exact G1|exact S4|unfold limit; rewrite S1; rewrite lenN_app, lenN_cons, lenN_nil in S5; lia|].
      unfold other_tag in S6. destruct its as [|i2 its]; cbn [goes_wrong]; right; (split; [exists v; exact G3|]); rewrite S1.
      * cbn [next_tag] in S6. destruct en as [|x [t|]]; [exact S8| |exact S8]. rewrite S6. exact S8.
      * cbn [next_tag] in S6. rewrite S6. exact S8.
    + assert (Q : it :: items = run ++ x :: its /\ skipped = sk).
      { destruct run as [|z run']; cbn [app] in *; inversion S3; subst; destruct (other_split _ _ _ _ _ _ _ S2 ltac:(eassumption) Hs Ht Eall) as (-> & -> & ->); split; reflexivity. }
      destruct Q as [Q ->]. rewrite S1 in Hmx. assert (run <> []) as Hr by (intros ->; rewrite lenN_nil in S4; lia). destruct (exists_last Hr) as (run' & y & Erun). subst run.
      apply Forall2_app_inv_l in S5 as (vs1 & vs2 & G1 & G2 & _). inversion G2 as [|? v ? ? G3 _]; subst vs2 x0 l. rewrite Forall_app in S3. destruct S3 as [S31 S32]. inversion S32; subst.
      rewrite lenN_app, lenN_cons, lenN_nil in *.
      rewrite <- app_assoc in Q. cbn [app] in Q. eapply (RUN run' y (x :: its) vs1); [exact Q|congruence|exact G1|exact S31|unfold limit; rewrite S1; lia|].
      cbn [goes_wrong]. right. split; [exists v; exact G3|]. rewrite S1. unfold has_tag in *. replace (ti_match (h_ti (head e)) (fst x)) with true by (symmetry; assumption).
      destruct (N.ltb_spec (lenN run' + 1) (lenN run' + (1 + 0))); [lia|]. right. exists ies1, d', ies2. split; [reflexivity|]. split; [exact S6|]. split; [exact S7|exact S8].
  - intros H. apply wrong_split in H; [|unfold limit; destruct (h_multi (head e)) as [[mx mand]|]; lia|reflexivity|exact Ht].
    destruct H as (run & x & i2 & vs & Q & A & B & C & D & F). rewrite Q. rewrite N.add_0_l in *. destruct F as [F|[(v & Hv) F]].
    { eapply XO_value; [exact Hs|exact A|exact C|exact B|exact F]. }
    assert (GB : Forall2 (gives c true rest e) (run ++ [x]) (vs ++ [v])) by (apply Forall2_app; [exact B|constructor; [exact Hv|constructor]]).
    assert (NN : run ++ [x] <> []) by (intros Z; apply app_eq_nil in Z as [_ Z]; discriminate).
    destruct (h_multi (head e)) as [[mx mand]|] eqn:Em.
    + assert (Hlim : limit e = mx) by (unfold limit; rewrite Em; reflexivity). assert (LL : lenN (run ++ [x]) <= mx) by (rewrite lenN_app, lenN_cons, lenN_nil; lia).
      destruct i2 as [|it' i2].
      * assert (DONE : match next_tag [] en with Some t => other_tag e t | None => True end -> P [] -> fails_ordered c rest en er (e :: ies) (skipped ++ run ++ [x])).
        { intros N1 N2. replace (run ++ [x]) with ((run ++ [x]) ++ []) by apply app_nil_r. eapply XO_run; [exact Em|exact Hs|exact NN|exact A|exact LL|exact N1|exact GB|exact N2]. }
        destruct en as [|z [t|]] eqn:Een; cbn [next_tag] in DONE; [apply DONE; [exact I|exact F]| |apply DONE; [exact I|exact F]].
        destruct (ti_match (h_ti (head e)) t) eqn:Et; [|apply DONE; [exact Et|exact F]]. subst z.
        eapply XO_torn; [exact Em|exact Hs|exact NN|exact A|exact LL|exact GB|reflexivity|exact Et].
      * change (x :: it' :: i2) with ([x] ++ it' :: i2). rewrite (app_assoc run [x]). destruct (ti_match (h_ti (head e)) (fst it')) eqn:Et.
        -- destruct F as [F1 F2].
           assert (LM : lenN (run ++ [x]) = mx) by (rewrite lenN_app, lenN_cons, lenN_nil; lia).
           assert (AA : Forall (fun it : item => has_tag e (fst it)) ((run ++ [x]) ++ [it'])) by (apply Forall_app; split; [exact A|constructor; [exact Et|constructor]]).
           destruct F2 as [[F2 F3]|(ies1 & d' & ies2 & F2 & F3 & F4 & F5)].
           ++ eapply XO_surplus; [exact Em|exact Hs|exact AA|exact LM|exact GB|exact F2|exact F3].
           ++ rewrite F2. eapply XO_jump; [exact Em|exact Hs|exact AA|exact LM|exact GB|exact F3|exact F4|exact F5].
        -- eapply XO_run; [exact Em|exact Hs|exact NN|exact A|exact LL|exact Et|exact GB|exact F].
    + rewrite (D eq_refl) in *. cbn [app] in *. eapply XO_single; [exact Em|exact Hs|inversion A; assumption|exact Hv|exact F].
Qed.
End OF.

Section OG.
Context {V : Type}.
Lemma ord_fails Tail c d rest en er : cfg_ok c -> tail_closed Tail -> Tail rest ->
  forall ies : list (coding V), Forall (fun e => entry_local Tail c true (entry_of e)) ies -> maxes_pos ies ->
  (forall fuel g items, (length (map entry_of ies) + length items < fuel)%nat -> aheads c d rest g items en ->
    (ord_loop fuel MOuter c (map entry_of ies) g (map (fun _ => []) ies) = Err er <-> fails_ordered c rest en er ies items)) /\
  (forall fuel g it items, (length (map entry_of ies) + length items < fuel)%nat -> aheads c d rest g items en -> cur g rest it ->
    (ord_loop fuel MJump c (map entry_of ies) g (map (fun _ => []) ies) = Err er <-> jumps_wrong c rest en er ies it items)).
Proof.
  intros Hok Htc Hr. induction ies as [|e ies IH]; intros Hloc Hmx.
  - split; intros fuel g; intros; (destruct fuel; [lia|]); cbn [map ord_loop].
    + split; [discriminate|intros H1; inversion H1].
    + unfold jumps_wrong. split; [intros [= <-]; left; split; [constructor|reflexivity]|]. intros [[_ ->]|([|? ?] & d' & ies2 & E & _)]; [reflexivity|discriminate|discriminate].
  - inversion Hloc as [|? ? L1 L2]; subst. assert (M2 : maxes_pos ies) by (unfold maxes_pos in *; inversion Hmx; assumption).
    assert (M1 : match h_multi (head e) with Some (mx, _) => 0 < mx | None => True end) by (unfold maxes_pos in *; inversion Hmx as [|? ? X Y]; subst; unfold max_pos in X; destruct (h_multi (head e)) as [[mx mand]|]; [lia|exact I]).
    destruct (IH L2 M2) as [IHo IHj]. clear IH.
    pose proof (ord_goes_wrong (fails_ordered c rest en er ies) (jumps_wrong c rest en er ies) c rest en er e Tail d (map entry_of ies) (map (fun _ => []) ies) Hok Htc Hr L1 IHo IHj) as G.
    assert (F0 : match h_multi (head e) with Some (mx, _) => mx <=? lenN (@nil (val V)) | None => false end = false).
    { destruct (h_multi (head e)) as [[mx mand]|]; [|reflexivity]. rewrite lenN_nil. lia. }
    split.
    + intros fuel g items Hf Ha. destruct fuel as [|f]; [lia|]. cbn [map length] in *. cbn [ord_loop]. cbn [e_h entry_of].
      pose proof (aheads_by_tag c d rest (h_ti (head e)) g _ _ Hok Ha) as Hb.
      destruct (first_match (h_ti (head e)) items) as [[[a x] b]|] eqn:Ef.
      * destruct (first_match_some _ _ _ _ _ Ef) as (-> & F1 & F2). destruct Hb as (g' & -> & Ha' & Hcu & _). rewrite ti_match_sym in F2.
        change (mkEntry (head e) (dec_coding e)) with (entry_of e).
        rewrite (G b x [] f MInner g' F2 ltac:(reflexivity) F0 ltac:(discriminate) Ha' Hcu ltac:(rewrite app_length in Hf; cbn [length] in Hf; lia)).
        symmetry. apply fails_present; [exact M1| |exact F2]. eapply Forall_impl; [|exact F1]. unfold other_tag. intros y Hy. rewrite ti_match_sym. exact Hy.
      * rewrite Hb. assert (Na : Forall (fun it : item => other_tag e (fst it)) items).
        { eapply Forall_impl; [|exact (first_match_no _ _ Ef)]. unfold other_tag. intros y Hy. rewrite ti_match_sym. exact Hy. }
        assert (INV : fails_ordered c rest en er (e :: ies) items <->
           (searchable en = false /\ exists t, en = Broken er t) \/ searchable en = true /\ (0 < low_of (head e) /\ er = ENOENT \/ low_of (head e) = 0 /\ fails_ordered c rest en er ies items)).
        { split; [|intros [(A & t & B)|(A & [(B & C)|(B & C)])]; [eapply XO_unsearchable; eassumption|apply XO_missing; assumption|apply XO_absent; assumption]].
          assert (NO : forall run (x : item) its sk, items = sk ++ run ++ x :: its -> Forall (fun it : item => has_tag e (fst it)) (run ++ [x]) -> False).
          { intros run x its sk -> HT. rewrite !Forall_app in Na. destruct Na as (_ & _ & Na). apply Forall_app in HT as [_ HT]. inversion Na; inversion HT. unfold has_tag, other_tag in *. congruence. }
          intros H. inversion H as [d0 ies0 items0 t S1 S2 S3|d0 ies0 items0 S1 S2 S3 S4|d0 ies0 sk run x its vs S1 S2 S3 S4 S5|d0 ies0 mx mand sk run vs t S1 S2 S3 S4 S5 S6 S7 S8
            |d0 ies0 mx mand sk run x its vs S1 S2 S3 S4 S5 S6 S7|d0 ies0 items0 S1 S2 S3 S4|d0 ies0 sk x its v S1 S2 S3 S4 S5|d0 ies0 mx mand sk run its s S1 S2 S3 S4 S5 S6 S7 S8
            |d0 ies1 d' ies2 mx mand sk run x its s S1 S2 S3 S4 S5 S6 S7 S8]; subst d0; try subst ies0.
          - left. split; [exact S2|]. exists t. exact S3.
          - right. split; [exact S2|]. left. split; [exact S3|exact S4].
          - exfalso. eapply (NO run x its sk); [symmetry; match goal with X : _ = items |- _ => etransitivity; [|exact X] end; rewrite <- ?app_assoc; reflexivity|exact S2].
          - exfalso. destruct (exists_last S3) as (run' & y & Erun). subst run. eapply (NO run' y [] sk); [symmetry; match goal with X : _ = items |- _ => etransitivity; [|exact X] end; rewrite <- ?app_assoc; reflexivity|exact S4].
          - exfalso. eapply (NO run x its sk); [symmetry; match goal with X : _ = items |- _ => etransitivity; [|exact X] end; rewrite <- ?app_assoc; reflexivity|exact S3].
          - right. split; [exact S1|]. right. split; [exact S3|exact S4].
          - exfalso. eapply (NO [] x its sk); [symmetry; match goal with X : _ = items |- _ => etransitivity; [|exact X] end; rewrite <- ?app_assoc; reflexivity|constructor; [exact S3|constructor]].
          - exfalso. destruct (exists_last S3) as (run' & y & Erun). subst run. eapply (NO run' y its sk); [symmetry; match goal with X : _ = items |- _ => etransitivity; [|exact X] end; rewrite <- ?app_assoc; reflexivity|exact S4].
          - exfalso. eapply (NO run x its sk); [symmetry; match goal with X : _ = items |- _ => etransitivity; [|exact X] end; rewrite <- ?app_assoc; reflexivity|exact S3]. }
        rewrite INV. clear INV.
        assert (El : negb (h_pres (head e)) && match h_multi (head e) with Some (_, mand) => lenN (@nil (val V)) <? mand | None => true end = negb (low_of (head e) =? 0)).
        { unfold low_of. rewrite lenN_nil. destruct (h_pres (head e)); [reflexivity|]. cbn [negb andb]. destruct (h_multi (head e)) as [[mx mand]|]; [lia|reflexivity]. }
        assert (ABS : (if negb (h_pres (head e)) && match h_multi (head e) with Some (_, mand) => lenN (@nil (val V)) <? mand | None => true end then Err ENOENT
            else r <- ord_loop f MOuter c (map entry_of ies) g (map (fun _ => []) ies);; Ok ((if h_pres (head e) then [] else []) :: r)) = Err er
          <-> (0 < low_of (head e) /\ er = ENOENT \/ low_of (head e) = 0 /\ fails_ordered c rest en er ies items)).
        { rewrite El. destruct (N.eqb_spec (low_of (head e)) 0) as [E0|E0]; cbn [negb].
          - rewrite bind_cons_err, (IHo f g items ltac:(lia) Ha). split; [intros H; right; split; [exact E0|exact H]|intros [[H _]|[_ H]]; [lia|exact H]].
          - split; [intros [= <-]; left; split; [lia|reflexivity]|intros [[_ ->]|[H _]]; [reflexivity|lia]]. }
        assert (SR : forall Q : Prop, Q <-> (true = false /\ (exists t, en = Broken er t)) \/ true = true /\ Q).
        { intros Q. split; [intros H; right; split; [reflexivity|exact H]|intros [[H _]|[_ H]]; [discriminate|exact H]]. }
        assert (US : forall x t, en = Broken x t -> (Err (A := list (slot V)) x = Err er <-> (false = false /\ (exists t, en = Broken er t)) \/ false = true /\ (0 < low_of (head e) /\ er = ENOENT \/ low_of (head e) = 0 /\ fails_ordered c rest en er ies items))).
        { intros x t Ex. split; [intros [= <-]; left; split; [reflexivity|exists t; exact Ex]|intros [(_ & t' & E')|[H _]]; [rewrite Ex in E'; injection E' as ->; reflexivity|discriminate]]. }
        destruct en as [|x t] eqn:Een; cbn [searchable].
        -- rewrite ABS. apply SR.
        -- destruct x; try (exact (US _ t eq_refl)). rewrite ABS. apply SR.
    + intros fuel g it items Hf Ha Hcu. cbn [map length] in *. destruct (ti_match (h_ti (head e)) (fst it)) eqn:Et.
      * rewrite (G items it [] fuel MJump g Et ltac:(reflexivity) F0 ltac:(discriminate) Ha Hcu ltac:(lia)). rewrite lenN_nil.
        rewrite <- (fails_present c rest en er e ies [] it items M1 ltac:(constructor) Et). unfold jumps_wrong. split.
        -- intros H. right. exists [], e, ies. split; [reflexivity|]. split; [constructor|]. split; [exact Et|exact H].
        -- intros [[A _]|(ies1 & d' & ies2 & E & A & B & C)]; [inversion A; unfold other_tag in *; congruence|]. destruct ies1 as [|x ies1]; cbn [app map] in *; [injection E as <- <-; exact C|].
           injection E as <- _. inversion A. unfold other_tag in *. congruence.
      * destruct fuel as [|f]; [lia|]. cbn [ord_loop]. cbn [e_h entry_of]. rewrite (cu_ti _ _ _ Hcu), ti_match_sym, Et. rewrite bind_cons_err.
        rewrite (IHj f g it items ltac:(lia) Ha Hcu). unfold jumps_wrong. split.
        -- intros [[A B]|(ies1 & d' & ies2 & -> & A & B & C)]; [left; split; [constructor; assumption|exact B]|right]. exists (e :: ies1), d', ies2. split; [reflexivity|]. split; [constructor; assumption|]. split; assumption.
        -- intros [[A B]|(ies1 & d' & ies2 & E & A & B & C)]; [left; split; [inversion A; assumption|exact B]|right]. destruct ies1 as [|x ies1]; cbn [app map] in *; [injection E as <- <-; unfold has_tag in B; congruence|].
           injection E as <- ->. inversion A; subst. exists ies1, d', ies2. split; [reflexivity|]. split; [assumption|]. split; assumption.
Qed.

Theorem decode_ordered_error Tail c (ies : list (coding V)) d rest items en er :
  cfg_ok c -> tail_closed Tail -> Tail rest -> Forall (all_leaves (leaf_local Tail)) ies -> Forall (all_cfgs cfg_ok) ies -> maxes_pos ies ->
  reads c d items en ->
  (gtlvs_decode c true (Some ies) (d ++ rest) (lenN d) = Err er <-> fails_ordered c rest en er ies items).
Proof.
  intros Hok Htc Hr Hl Hc Hm R. cbn [gtlvs_decode decode_entries]. unfold decode_ordered. rewrite budget_app, map_map.
  apply (reads_scanned c d _ _ Hok) in R. pose proof (aheads_start c d rest _ _ R) as Ha. pose proof (aheads_length _ _ _ _ _ _ Hok Ha) as Hlen.
  assert (HL : Forall (fun e => entry_local Tail c true (entry_of e)) ies).
  { rewrite Forall_forall in *. intros x Hx. apply dec_coding_local; auto. }
  apply (proj1 (ord_fails Tail c d rest en er Hok Htc Hr ies HL Hm)); [|exact Ha].
  unfold lenN in Hlen. unfold ld_pos in Hlen. cbn [load_start ld_val] in Hlen. lia.
Qed.
End OG.

Section UE.
Context {V : Type}.
Implicit Types (slots : list (slot V)).

Lemma fold_shared c r0 : forall ies pre idx l out, idx + lenN ies <= seen_max -> maxes_pos ies -> counted pre l ->
  (fold_from c (map entry_of ies) idx r0 (map (fun _ => []) ies) l = Ok out <-> shared_out c r0 (pre ++ ies) (ies : list (coding V)) (map snd l) out).
Proof.
  induction ies as [|d ies IH]; intros pre idx l out Hi Hm Hc; cbn [map].
  - rewrite app_nil_r. split.
    + intros H. assert (E : Forall (fun it : item => Forall (fun d : coding V => other_tag d (fst it)) pre) (map snd l) /\ out = []).
      { rewrite Forall_map. induction Hc as [|[al it] l H1 H2 IHl]; [inversion H; split; [constructor|reflexivity]|]. cbn [fold_from place] in H. cbn [fst snd] in *.
        destruct (N.eqb_spec al 0) as [E|E]; cbn [bind] in H; [|discriminate]. destruct (IHl H) as [A B]. split; [constructor; [apply H1, E|exact A]|exact B]. }
      destruct E as [E ->]. constructor. exact E.
    + intros H. inversion H as [? F|]; subst. clear H. rewrite Forall_map in F. induction Hc as [|[al it] l H1 H2 IHl]; [reflexivity|].
      inversion F as [|? ? F1 F2]; subst. cbn [fold_from place]. cbn [fst snd] in *. rewrite (proj2 H1 F1). cbn [N.eqb bind]. apply IHl, F2.
  - inversion Hm as [|? ? M1 M2]; subst. rewrite lenN_cons in Hi.
    assert (Hpre : pre ++ d :: ies = (pre ++ [d]) ++ ies) by (rewrite <- app_assoc; reflexivity). rewrite Hpre.
    pose proof (IH (pre ++ [d]) (idx + 1) (left_by d (N.to_nat (cap_of (head d))) l)) as IH'. split.
    + intros H. apply (fold_entry c d (map entry_of ies) idx r0 ltac:(lia)) in H. rewrite lenN_nil, N.sub_0_r in H. cbn [app] in H.
      destruct H as (vs & out' & -> & A & B). apply SO_entry; [exact A|]. rewrite <- left_by_items.
      apply IH'; [lia|exact M2|apply counted_left; assumption|]. exact B.
    + intros H. inversion H as [|? ? ? s slots G R]; subst. rewrite <- left_by_items in R. apply IH' in R; [|lia|exact M2|apply counted_left; assumption].
      apply (fold_entry c d (map entry_of ies) idx r0 ltac:(lia)). rewrite lenN_nil, N.sub_0_r. cbn [app].
      exists s, slots. split; [reflexivity|]. split; [exact G|exact R].
Qed.
Lemma shared_length c r0 all ies items out : shared_out (V := V) c r0 all ies items out -> Forall2 (fun d s => lenN s <= cap_of (head d)) ies out.
Proof.
  intros H. induction H as [items F|d ies items s slots G R IH]; [constructor|]. constructor; [|exact IH].
  apply Forall2_length in G. unfold first_of in G. rewrite firstn_length in G. unfold lenN in *. lia.
Qed.

Lemma place_any_err c r0 it e : forall (ies : list (coding V)), maxes_pos ies -> forall idx al slots, length slots = length ies -> idx + lenN ies <= seen_max ->
  (place c (map entry_of ies) idx al slots (fst it) (snd it ++ r0) (lenN (snd it)) = Err e <->
   Forall2 (fun d s => has_tag d (fst it) -> cap_of (head d) <= lenN s) ies slots /\ (0 < al \/ Exists (fun d => has_tag d (fst it)) ies) /\ e = ENOTSUP \/
   exists ies1 d ies2 slots1 s slots2, ies = ies1 ++ d :: ies2 /\ slots = slots1 ++ s :: slots2 /\
     Forall2 (fun d s => has_tag d (fst it) -> cap_of (head d) <= lenN s) ies1 slots1 /\ has_tag d (fst it) /\ lenN s < cap_of (head d) /\
     dec_coding d c false (snd it ++ r0) (lenN (snd it)) = Err e).
Proof.
  unfold has_tag. induction ies as [|d ies IH]; intros Hm idx al slots Hl Hi; destruct slots as [|s slots]; try discriminate; cbn [map].
  - cbn [place]. destruct (N.eqb_spec al 0) as [E|E]; (split; [|]).
    + discriminate.
    + intros [(_ & [H|H] & _)|([|? ?] & d & i2 & s1 & s & s2 & H & _)]; [lia|inversion H|discriminate|discriminate].
    + intros [= <-]. left. split; [constructor|]. split; [left; lia|reflexivity].
    + intros [(_ & _ & ->)|([|? ?] & d & i2 & s1 & s & s2 & H & _)]; [reflexivity|discriminate|discriminate].
  - inversion Hm as [|? ? M1 M2]; subst. rewrite lenN_cons in Hi. cbn [length] in Hl.
    rewrite place_cons by lia. cbn [entry_of e_h e_dec].
    destruct (ti_match (h_ti (head d)) (fst it)) eqn:Et; cbn [negb].
    + destruct (N.leb_spec (cap_of (head d)) (lenN s)) as [Hc|Hc].
      * rewrite bind_cons_err. rewrite (IH M2) by lia. split.
        -- intros [(A & B & C)|(i1 & d' & i2 & s1 & s' & s2 & -> & -> & A & B & C & D)].
           ++ left. split; [constructor; [intros _; exact Hc|exact A]|]. split; [right; left; exact Et|exact C].
           ++ right. exists (d :: i1), d', i2, (s :: s1), s', s2. split; [reflexivity|]. split; [reflexivity|]. split; [constructor; [intros _; exact Hc|exact A]|]. split; [exact B|]. split; [exact C|exact D].
        -- intros [(A & B & C)|(i1 & d' & i2 & s1 & s' & s2 & E1 & E2 & A & B & C & D)].
           ++ left. inversion A; subst. split; [assumption|]. split; [left|reflexivity]. unfold max_pos in M1. destruct (h_multi (head d)) as [[mx mand]|]; lia.
           ++ right. destruct i1 as [|x i1]; cbn [app] in *.
              { injection E1 as <- <-. inversion A; subst. cbn [app] in E2. injection E2 as <- <-. lia. }
              injection E1 as <- ->. inversion A as [|? y ? s1' A1 A2]; subst. cbn [app] in E2. injection E2 as <- ->.
              exists i1, d', i2, s1', s', s2. split; [reflexivity|]. split; [reflexivity|]. split; [exact A2|]. split; [exact B|]. split; [exact C|exact D].
      * rewrite bind_err. split.
        -- intros [H|(v & _ & H)]; [|discriminate]. right. exists [], d, ies, [], s, slots. split; [reflexivity|]. split; [reflexivity|]. split; [constructor|]. split; [exact Et|]. split; [exact Hc|exact H].
        -- intros [(A & _)|(i1 & d' & i2 & s1 & s' & s2 & E1 & E2 & A & B & C & D)]; left.
           ++ exfalso. inversion A as [|? ? ? ? A1 A2]; subst. specialize (A1 Et). lia.
           ++ destruct i1 as [|x i1]; cbn [app] in *; [injection E1 as <- _; exact D|]. exfalso. injection E1 as <- ->. inversion A as [|? y ? s1' A1 A2]; subst. cbn [app] in E2. injection E2 as <- _. specialize (A1 Et). lia.
    + rewrite bind_cons_err. rewrite (IH M2) by lia. split.
      * intros [(A & B & C)|(i1 & d' & i2 & s1 & s' & s2 & -> & -> & A & B & C & D)].
        -- left. split; [constructor; [congruence|exact A]|]. split; [destruct B as [B|B]; [left; exact B|right; right; exact B]|exact C].
        -- right. exists (d :: i1), d', i2, (s :: s1), s', s2. split; [reflexivity|]. split; [reflexivity|]. split; [constructor; [congruence|exact A]|]. split; [exact B|]. split; [exact C|exact D].
      * intros [(A & B & C)|(i1 & d' & i2 & s1 & s' & s2 & E1 & E2 & A & B & C & D)].
        -- left. inversion A; subst. split; [assumption|]. split; [destruct B as [B|B]; [left; exact B|right; inversion B; [congruence|assumption]]|reflexivity].
        -- right. destruct i1 as [|x i1]; cbn [app] in *; [injection E1 as <- _; congruence|].
           injection E1 as <- ->. inversion A as [|? y ? s1' A1 A2]; subst. cbn [app] in E2. injection E2 as <- ->.
           exists i1, d', i2, s1', s', s2. split; [reflexivity|]. split; [reflexivity|]. split; [exact A2|]. split; [exact B|]. split; [exact C|exact D].
Qed.

Lemma full_exactly it (ies : list (coding V)) slots : Forall2 (fun d s => lenN s <= cap_of (head d)) ies slots ->
  (Forall2 (fun d s => has_tag d (fst it) -> cap_of (head d) <= lenN s) ies slots <-> Forall2 (fun (d : coding V) s => has_tag d (fst (it : item)) -> lenN s = cap_of (head d)) ies slots).
Proof.
  intros H. split; intros F; induction H as [|d s ies slots H1 H2 IH]; try constructor; inversion F as [|? ? ? ? F1 F2]; subst; auto; intros T; specialize (F1 T); lia.
Qed.

Theorem decode_unordered_error Tail c (ies : list (coding V)) d rest items en e :
  cfg_ok c -> tail_closed Tail -> Tail rest ->
  Forall (all_leaves (leaf_local Tail)) ies -> Forall (all_cfgs cfg_ok) ies -> maxes_pos ies -> small_table ies ->
  reads c d items en ->
  (gtlvs_decode c false (Some ies) (d ++ rest) (lenN d) = Err e <-> fails_unordered c rest ies items en e).
Proof.
  intros Hok Htc Hr Hl Hc Hmx Hsm HR. cbn [gtlvs_decode decode_entries].
  assert (HL : Forall (entry_local Tail c false) (map entry_of ies)).
  { apply Forall_map. rewrite Forall_forall in *. intros x Hx. apply dec_coding_local; auto. }
  rewrite (decode_unordered_items Tail c _ rest) by assumption. unfold parsed. rewrite pitems_scan by (assumption || lia).
  apply (reads_scanned c d _ _ Hok) in HR. unfold scanned in HR. rewrite HR. clear HR.
  assert (Hsm' : lenN (map entry_of ies) <= seen_max) by (unfold small_table, seen_max, lenN in *; rewrite map_length; exact Hsm).
  assert (Hsm2 : 0 + lenN ies <= seen_max) by (unfold lenN in *; rewrite map_length in Hsm'; lia).
  assert (FF : forall its out, fold_place c (map entry_of ies) rest (init_slots (map entry_of ies)) its = Ok out <-> shared_out c rest ies ies its out).
  { intros its out. assert (Hct : counted (V := V) [] (map (fun it => (0, it)) its)) by (unfold counted; rewrite Forall_map; apply Forall_forall; intros it _; cbn [fst]; split; [constructor|reflexivity]).
    assert (Hit : map snd (map (fun it : item => (0, it)) its) = its) by (rewrite map_map; cbn [snd]; apply map_id).
    pose proof (fold_shared c rest ies [] 0 (map (fun it => (0, it)) its) out Hsm2 Hmx Hct) as F. cbn [app] in F. rewrite Hit in F.
    unfold init_slots. rewrite map_map. rewrite fold_from_start. exact F. }
  assert (CM : forall slots, length slots = length ies -> (check_mand 0 (map entry_of ies) slots = Err e <-> ~ Forall2 (fun d s => low_of (head d) <= lenN s) ies slots /\ e = EINVAL)).
  { intros slots Hlen. rewrite check_mand_iff by (rewrite ?map_length; auto; lia).
    assert (B : forallb (fun x => low_of (e_h (fst x)) <=? lenN (snd x)) (combine (map entry_of ies) slots) = true <-> Forall2 (fun (d : coding V) s => low_of (head d) <= lenN s) ies slots).
    { clear - Hlen. revert slots Hlen. induction ies as [|x ies IH]; intros [|y slots] Hlen; try discriminate; cbn [map combine forallb fst snd]; [split; [constructor|reflexivity]|].
      cbn [length] in Hlen. rewrite andb_true_iff, (IH slots) by lia. cbn [entry_of e_h]. rewrite N.leb_le. split; [intros [A B]; constructor; assumption|intros H; inversion H; split; assumption]. }
    destruct (forallb _ _).
    - split; [discriminate|intros [H _]; exfalso; apply H, B; reflexivity].
    - split; [intros [= <-]; split; [intros H; apply B in H; discriminate|reflexivity]|intros [_ ->]; reflexivity]. }
  rewrite bind_err. split.
  - intros [H|(s & Hs & H)].
    + apply fold_place_err in H. destruct H as (i1 & it & i2 & s1 & E & F & P). apply FF in F. pose proof (shared_length _ _ _ _ _ _ F) as HC. pose proof (Forall2_length _ _ _ HC) as Hlen.
      apply (place_any_err c rest it e ies Hmx 0 0 s1 (eq_sym Hlen)) in P; [|exact Hsm2].
      destruct P as [(A & [B|B] & C)|(ies1 & d' & ies2 & sl1 & s & sl2 & E1 & E2 & A & B & C & D)]; [lia| |].
      * eapply XU_surplus; [exact E|exact F|exact B|apply full_exactly; [exact HC|exact A]|exact C].
      * subst s1. eapply XU_value; [exact E|exact E1|exact F| |exact B|exact C|exact D]. apply full_exactly; [|exact A].
        rewrite E1 in HC. apply Forall2_app_inv_l in HC as (m1 & m2 & K1 & K2 & K3). pose proof (Forall2_length _ _ _ K1) as L1. pose proof (Forall2_length _ _ _ A) as L2.
        assert (m1 = sl1) as -> by (clear - K3 L1 L2; revert m1 ies1 K3 L1 L2; induction sl1 as [|y sl1 IH]; intros [|z m1] [|w ies1] K3 L1 L2; try discriminate; [reflexivity|]; cbn [app length] in *; injection K3 as -> K3; f_equal; eapply IH; [exact K3| |]; [injection L1 as L1; exact L1|injection L2 as L2; exact L2]).
        exact K1.
    + apply FF in Hs. pose proof (shared_length _ _ _ _ _ _ Hs) as HC. pose proof (Forall2_length _ _ _ HC) as Hlen. apply bind_err in H. destruct H as [H|(u & Hu & H)].
      * destruct en as [|e' t]; [discriminate|]. injection H as ->. eapply XU_torn; [exact Hs|reflexivity].
      * apply bind_err in H. destruct H as [H|(u' & _ & H)]; [|discriminate]. apply CM in H; [|symmetry; exact Hlen]. destruct H as [H ->].
        eapply XU_missing; [exact Hs|destruct en; [reflexivity|discriminate]|exact H|reflexivity].
  - intros H. destruct H as [i1 it i2 slots E F B A C|i1 it i2 ies1 d' ies2 sl1 s sl2 E E1 F A B C D|slots t F ->|slots F -> A ->].
    + left. pose proof (shared_length _ _ _ _ _ _ F) as HC. pose proof (Forall2_length _ _ _ HC) as Hlen. apply fold_place_err. exists i1, it, i2, slots. split; [exact E|]. split; [apply FF, F|].
      apply (place_any_err c rest it e ies Hmx 0 0 slots (eq_sym Hlen) Hsm2). left. split; [apply full_exactly; [exact HC|exact A]|]. split; [right; exact B|exact C].
    + left. pose proof (shared_length _ _ _ _ _ _ F) as HC. pose proof (Forall2_length _ _ _ HC) as Hlen. apply fold_place_err. exists i1, it, i2, (sl1 ++ s :: sl2). split; [exact E|]. split; [apply FF, F|].
      apply (place_any_err c rest it e ies Hmx 0 0 _ (eq_sym Hlen) Hsm2). right. exists ies1, d', ies2, sl1, s, sl2. split; [exact E1|]. split; [reflexivity|].
      split; [clear - A; induction A as [|x y l1 l2 A1 A2 IH]; constructor; [intros T; rewrite (A1 T); lia|exact IH]|]. split; [exact B|]. split; [exact C|exact D].
    + right. exists slots. split; [apply FF, F|reflexivity].
    + right. exists slots. split; [apply FF, F|]. cbn [bind]. apply bind_err. left. pose proof (Forall2_length _ _ _ (shared_length _ _ _ _ _ _ F)) as Hlen.
      apply CM; [symmetry; exact Hlen|]. split; [exact A|reflexivity].
Qed.
End UE.
