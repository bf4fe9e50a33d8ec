(* GenCompile.v -- definitions that name things consistently are accepted: the generator does not exit, its output compiles *)
From Coq Require Import String Ascii.
From Verif Require Import Base BaseProofs GtlvModel DecEncModel MemModel MemSpec GenModel GenSpec GenProofs GenTabProofs.
Local Open Scope string_scope.
Local Open Scope N_scope.

Lemma app_inj_prefix p a b : p ++ a = p ++ b -> a = b.
Proof. induction p as [|c p IH]; [auto|]. cbn. intros H. injection H as H. auto. Qed.

Lemma lay_struct_total te ms : forall c a fs, Forall (fun m => te (mb_type m) <> None) ms -> NoDup (map fst fs ++ map mb_name ms) ->
  exists ty, lay_struct te ms c a fs = Some ty.
Proof.
  induction ms as [|m ms IH]; intros c a fs H HN; [eexists; reflexivity|]. inversion_clear H as [|? ? H1 H2]. cbn [lay_struct].
  destruct (te (mb_type m)) as [t|]; [|easy]. cbn [obind]. assert (E : has (mb_name m) fs = false).
  { destruct (has (mb_name m) fs) eqn:E; [|reflexivity]. apply has_in in E. cbn [map] in HN. apply NoDup_remove_2 in HN. destruct HN. apply in_or_app. auto. }
  rewrite E. apply IH; [exact H2|]. rewrite map_app. cbn [map fst]. rewrite <- app_assoc. exact HN.
Qed.
Lemma lay_union_total te ms : forall c a fs, Forall (fun m => te (mb_type m) <> None) ms -> NoDup (map fst fs ++ map mb_name ms) ->
  exists ty, lay_union te ms c a fs = Some ty.
Proof.
  induction ms as [|m ms IH]; intros c a fs H HN; [eexists; reflexivity|]. inversion_clear H as [|? ? H1 H2]. cbn [lay_union].
  destruct (te (mb_type m)) as [t|]; [|easy]. cbn [obind]. assert (E : has (mb_name m) fs = false).
  { destruct (has (mb_name m) fs) eqn:E; [|reflexivity]. apply has_in in E. cbn [map] in HN. apply NoDup_remove_2 in HN. destruct HN. apply in_or_app. auto. }
  rewrite E. apply IH; [exact H2|]. rewrite map_app. cbn [map fst]. rewrite <- app_assoc. exact HN.
Qed.

Section C.
Variable cfg : gcfg.
Variable te0 : tenv.
Variable ce : string -> option N.
Variable ms : list gmsg.
Notation all := (all_ies ms).
Hypothesis WN : well_named cfg te0 ce ms.
Lemma wn_short : names_short cfg ms. Proof. apply WN. Qed.
Lemma wn_fshort i : In i all -> gn i = None -> (String.length (decenc i) <= 255)%nat. Proof. apply WN. Qed.
Lemma wn_group i j : In i all -> In j all -> gn i <> None -> gn j <> None -> tagname i = tagname j -> g_id (gd i) = g_id (gd j). Proof. apply WN. Qed.
Lemma wn_cons : types_consistent cfg ms. Proof. apply WN. Qed.
Lemma wn_memb i ies : In i all -> gn i = Some ies -> NoDup (map mb_name (members cfg ies)). Proof. apply WN. Qed.
Lemma wn_mmemb : Forall (fun m => NoDup (map mb_name (members cfg (snd m)))) ms. Proof. apply WN. Qed.
Lemma wn_msgs : NoDup (map fst ms). Proof. apply WN. Qed.
Lemma wn_bool : te0 "bool" <> None. Proof. apply WN. Qed.
Lemma wn_uint : te0 "unsigned int" <> None. Proof. apply WN. Qed.
Lemma wn_leaf i : In i all -> gn i = None -> te0 (dtype cfg i) <> None. Proof. apply WN. Qed.
Lemma wn_gtype i : In i all -> gn i <> None ->
  te0 (dtype cfg i) = None /\ dtype cfg i <> msg_union cfg /\ Forall (fun m => dtype cfg i <> msg_struct cfg (fst m) /\ tagname i <> "msg_" ++ fst m) ms.
Proof. apply WN. Qed.
Lemma wn_mtype : Forall (fun m => te0 (msg_struct cfg (fst m)) = None /\ msg_struct cfg (fst m) <> msg_union cfg) ms. Proof. apply WN. Qed.
Lemma wn_union : te0 (msg_union cfg) = None. Proof. apply WN. Qed.
Lemma wn_tag i : In i all -> ce (gc_tagp cfg ++ toupper (tagname i)) <> None /\ forall x, g_inst (gm i) = Some x -> ce x <> None. Proof. apply WN. Qed.
Lemma wn_mtag : Forall (fun m => ce (gc_msgt cfg ++ toupper (fst m)) <> None) ms. Proof. apply WN. Qed.

(* ---------------------------------------------------------------- header *)
Record hinv (te : tenv) (s : seenl) : Prop := {
  hi_seen : forall T d, In (T, d) s -> d = None /\ te T <> None /\ exists j, In j all /\ gn j <> None /\ dtype cfg j = T;
  hi_only : forall T, te T <> None -> te0 T <> None \/ exists d, In (T, d) s;
  hi_ext : ext te0 te }.
Definition h_done (te : tenv) (j : gie) : Prop := gn j <> None -> te (dtype cfg j) <> None.
Lemma h_done_ext te te' j : ext te te' -> h_done te j -> h_done te' j.
Proof. intros HE H Hn E. specialize (H Hn). destruct (te (dtype cfg j)) as [t|] eqn:Et; [|easy]. apply HE in Et. congruence. Qed.
Lemma seen_none str s : (forall T d, In (T, d) s -> d = None) ->
  (seen str None s = Some (true, s) /\ exists d, In (str, d) s) \/ (seen str None s = Some (false, (trunc 255 str, None) :: s) /\ forall d, ~ In (str, d) s).
Proof.
  intros H. unfold seen. destruct (find _ s) as [[n e]|] eqn:E.
  - apply find_some in E as [E1 E2]. cbn in E2. apply String.eqb_eq in E2. subst n. left. split; [cbn [snd]; rewrite (H _ _ E1); reflexivity|]. exists e. exact E1.
  - right. split; [reflexivity|]. intros d Hd. apply (find_none _ _ E) in Hd. cbn in Hd. rewrite String.eqb_refl in Hd. discriminate.
Qed.
Lemma members_typed te ies : ext te0 te -> closed ms ies -> (forall j, In j ies -> h_done te j) -> Forall (fun m => te (mb_type m) <> None) (members cfg ies).
Proof.
  intros HE HC HD. assert (HE' : forall T, te0 T <> None -> te T <> None).
  { intros T H E. destruct (te0 T) as [t|] eqn:Et; [|easy]. apply HE in Et. congruence. }
  unfold members. induction ies as [|i ies IH]; [constructor|]. apply closed_cons in HC as [HC1 HC2]. cbn [flat_map]. apply Forall_app. split.
  - assert (Hd : te (dtype cfg i) <> None).
    { assert (Hi : In i all) by (apply HC1, occs_self). destruct (gn i) eqn:Eg; [apply (HD i (or_introl eq_refl)); congruence|]. apply HE', wn_leaf; assumption. }
    unfold ie_members. apply Forall_app. split.
    + destruct (g_opt (gm i)); [|constructor]. constructor; [|constructor]. apply HE', wn_bool.
    + destruct (g_multi (gm i) =? 0); [constructor; [exact Hd|constructor]|]. constructor; [exact Hd|]. constructor; [|constructor]. apply HE', wn_uint.
  - apply IH; [exact HC2|]. intros j Hj. apply HD. right. exact Hj.
Qed.

Definition h_goal {A} (f : seenl -> option (list hitem * seenl)) (occ : list A) (P : tenv -> A -> Prop) : Prop :=
  forall te s, hinv te s -> exists out s' te', f s = Some (out, s') /\ cc_h te out = Some te' /\ hinv te' s' /\ ext te te' /\ forall j, In j occ -> P te' j.
Lemma walk_total_h l : closed ms l -> Forall (fun i => (forall j, In j (occs i) -> In j all) -> h_goal (auto_structs cfg i) (occs i) h_done) l ->
  h_goal (walk (auto_structs cfg) l) (flat_map occs l) h_done.
Proof.
  intros HC HF. induction HF as [|i l Hi Hl IH]; intros te s HI.
  - exists [], s, te. split; [reflexivity|]. split; [reflexivity|]. split; [exact HI|]. split; [apply ext_refl|easy].
  - apply closed_cons in HC as [HC1 HC2]. destruct (Hi HC1 te s HI) as (o1 & s1 & te1 & F1 & R1 & I1 & E1 & D1).
    destruct (IH HC2 te1 s1 I1) as (o2 & s2 & te2 & F2 & R2 & I2 & E2 & D2). exists (o1 ++ o2)%list, s2, te2. cbn [walk]. rewrite F1. cbn [obind snd]. rewrite F2. cbn [obind fst snd].
    split; [reflexivity|]. split; [rewrite cc_h_app, R1; exact R2|]. split; [exact I2|]. split; [exact (ext_trans _ _ _ E1 E2)|].
    cbn [flat_map]. intros j Hj. apply in_app_or in Hj as [Hj|Hj]; [apply (h_done_ext te1); auto|auto].
Qed.
Lemma structs_total i : (forall j, In j (occs i) -> In j all) -> h_goal (auto_structs cfg i) (occs i) h_done.
Proof.
  induction i as [m d|m d ies IH] using gie_ind'; intros HC te s HI.
  - exists [], s, te. split; [reflexivity|]. split; [reflexivity|]. split; [exact HI|]. split; [apply ext_refl|]. intros j [<-|[]] Hn. easy.
  - destruct (walk_total_h ies (closed_nested ms m d ies HC) IH te s HI) as (o1 & s1 & te1 & F1 & R1 & I1 & E1 & D1).
    cbn [auto_structs]. rewrite F1. cbn [obind fst snd]. set (i := GIe m d (Some ies)) in *. assert (Hi : In i all) by (apply HC, occs_self).
    assert (Hg : gn i <> None) by discriminate.
    destruct (seen_none (dtype cfg i) s1) as [[Es (e & He)]|[Es Hno]]; [intros T e He; apply (hi_seen _ _ I1 _ _ He)| |]; rewrite Es; cbn [obind fst snd].
    + exists (o1 ++ [])%list, s1, te1. rewrite app_nil_r. split; [reflexivity|]. split; [exact R1|]. split; [exact I1|]. split; [exact E1|].
      intros j Hj. change (occs i) with (i :: flat_map occs ies)%list in Hj. destruct Hj as [<-|Hj]; [|auto]. intros _. apply (hi_seen _ _ I1 _ _ He).
    + rewrite trunc_id by (apply (wn_short i Hi Hg)).
      assert (Hnone : te1 (dtype cfg i) = None).
      { destruct (te1 (dtype cfg i)) eqn:E; [|reflexivity]. destruct (hi_only _ _ I1 (dtype cfg i)) as [X|(e & X)]; [congruence| |destruct (Hno e X)].
        destruct X. apply (wn_gtype i Hi Hg). }
      destruct (lay_struct_total te1 (members cfg ies) 0 1 []) as (ty & Hty).
      { apply members_typed; [apply (hi_ext _ _ I1)|apply (closed_nested ms m d); exact HC|]. intros j Hj. apply D1. apply in_flat_map. exists j. split; [exact Hj|apply occs_self]. }
      { cbn [map app]. apply (wn_memb i ies Hi eq_refl). }
      exists (o1 ++ [HStruct (dtype cfg i) (members cfg ies)])%list, ((dtype cfg i, None) :: s1), (bindty (dtype cfg i) ty te1).
      pose proof (bindty_ext (dtype cfg i) ty te1 Hnone) as E2.
      split; [reflexivity|]. split; [rewrite cc_h_app, R1; cbn [obind cc_h cc_hitem]; rewrite Hnone, Hty; reflexivity|]. split; [constructor|split; [exact (ext_trans _ _ _ E1 E2)|]].
      * intros T e [E|Hin].
        { injection E as <- <-. split; [reflexivity|]. split; [rewrite bindty_same; discriminate|]. exists i. auto. }
        { destruct (hi_seen _ _ I1 _ _ Hin) as (X1 & X2 & X3). split; [exact X1|]. split; [|exact X3]. unfold bindty. destruct (String.eqb _ _); [discriminate|exact X2]. }
      * intros T. unfold bindty. destruct (String.eqb_spec (dtype cfg i) T) as [<-|Hne]; [intros _; right; exists None; left; reflexivity|].
        intros HT. destruct (hi_only _ _ I1 T HT) as [X|(e & X)]; [auto|]. right. exists e. right. exact X.
      * exact (ext_trans _ _ _ (hi_ext _ _ I1) E2).
      * intros j Hj. change (occs i) with (i :: flat_map occs ies)%list in Hj. destruct Hj as [<-|Hj].
        { intros _. rewrite bindty_same. discriminate. } { apply (h_done_ext te1); auto. }
Qed.
Lemma msgs_total_h l : Forall (fun m => closed ms (snd m)) l -> h_goal (walk_msgs (auto_structs cfg) l) (flat_map (fun m => flat_map occs (snd m)) l) h_done.
Proof.
  intros HC. induction HC as [|m l Hm Hl IH]; intros te s HI.
  - exists [], s, te. split; [reflexivity|]. split; [reflexivity|]. split; [exact HI|]. split; [apply ext_refl|easy].
  - destruct (walk_total_h (snd m) Hm (proj2 (Forall_forall _ _) (fun i _ => structs_total i)) te s HI) as (o1 & s1 & te1 & F1 & R1 & I1 & E1 & D1).
    destruct (IH te1 s1 I1) as (o2 & s2 & te2 & F2 & R2 & I2 & E2 & D2). exists (o1 ++ o2)%list, s2, te2. cbn [walk_msgs]. rewrite F1. cbn [obind snd]. rewrite F2. cbn [obind fst snd].
    split; [reflexivity|]. split; [rewrite cc_h_app, R1; exact R2|]. split; [exact I2|]. split; [exact (ext_trans _ _ _ E1 E2)|].
    cbn [flat_map]. intros j Hj. apply in_app_or in Hj as [Hj|Hj]; [apply (h_done_ext te1); auto|auto].
Qed.

Lemma msg_structs_total l : forall te, incl l ms -> NoDup (map fst l) -> ext te0 te -> (forall j, In j all -> h_done te j) ->
  Forall (fun m => te (msg_struct cfg (fst m)) = None) l ->
  exists te', cc_h te (map (fun m => HStruct (msg_struct cfg (fst m)) (members cfg (snd m))) l) = Some te' /\ ext te te'
    /\ (forall T, te' T <> None -> te T <> None \/ exists m, In m l /\ T = msg_struct cfg (fst m)) /\ Forall (fun m => te' (msg_struct cfg (fst m)) <> None) l.
Proof.
  induction l as [|m l IH]; intros te HI HN HE HD HF.
  - exists te. cbn [map cc_h]. repeat split; auto. apply ext_refl.
  - inversion_clear HF as [|? ? HF1 HF2]. cbn [map] in HN. inversion_clear HN as [|? ? HN1 HN2]. assert (Hm : In m ms) by (apply HI; left; reflexivity).
    pose proof (closed_all ms) as HC. rewrite Forall_forall in HC. specialize (HC m Hm).
    destruct (lay_struct_total te (members cfg (snd m)) 0 1 []) as (ty & Hty).
    { apply members_typed; auto. intros j Hj. apply HD, HC. apply in_flat_map. exists j. split; [exact Hj|apply occs_self]. }
    { pose proof wn_mmemb as X. rewrite Forall_forall in X. exact (X m Hm). }
    pose proof (bindty_ext (msg_struct cfg (fst m)) ty te HF1) as E2. set (te1 := bindty (msg_struct cfg (fst m)) ty te) in *.
    destruct (IH te1) as (te' & R & E3 & O3 & D3); auto.
    + intros x Hx. apply HI. right. exact Hx.
    + exact (ext_trans _ _ _ HE E2).
    + intros j Hj. apply (h_done_ext te); auto.
    + rewrite Forall_forall in HF2 |- *. intros x Hx. unfold te1, bindty. destruct (String.eqb_spec (msg_struct cfg (fst m)) (msg_struct cfg (fst x))) as [E|E]; [|auto].
      destruct HN1. unfold msg_struct in E. apply app_inj_prefix, app_inj_prefix, app_inj_prefix in E. rewrite E. apply in_map. exact Hx.
    + exists te'. cbn [map cc_h cc_hitem]. rewrite HF1, Hty. cbn [obind]. split; [exact R|]. split; [exact (ext_trans _ _ _ E2 E3)|]. split.
      * intros T HT. destruct (O3 T HT) as [X|(x & X1 & X2)]; [|right; exists x; split; [right; exact X1|exact X2]].
        unfold te1, bindty in X. destruct (String.eqb_spec (msg_struct cfg (fst m)) T) as [<-|_]; [right; exists m; split; [left; reflexivity|reflexivity]|auto].
      * constructor; [|exact D3]. rewrite (E3 _ ty); [discriminate|]. unfold te1. apply bindty_same.
Qed.
Lemma header_total : exists hs te, gen_h cfg ms = Some hs /\ cc_h te0 hs = Some te.
Proof.
  assert (HI0 : hinv te0 []) by (constructor; [easy|auto|apply ext_refl]).
  destruct (msgs_total_h ms (closed_all ms) te0 [] HI0) as (o & s & te1 & F1 & R1 & I1 & E1 & D1).
  assert (Hno : forall T, te0 T = None -> (forall j, In j all -> gn j <> None -> dtype cfg j <> T) -> te1 T = None).
  { intros T H1 H2. destruct (te1 T) eqn:E; [|reflexivity]. destruct (hi_only _ _ I1 T) as [X|(e & X)]; [congruence|congruence|].
    destruct (hi_seen _ _ I1 _ _ X) as (_ & _ & j & J1 & J2 & J3). destruct (H2 j J1 J2 J3). }
  destruct (msg_structs_total ms te1 (incl_refl ms) wn_msgs E1 D1) as (te2 & R2 & E2 & O2 & D2).
  { pose proof wn_mtype as W. rewrite Forall_forall in W |- *. intros m Hm. apply Hno; [apply W, Hm|]. intros j J1 J2. destruct (wn_gtype j J1 J2) as (_ & _ & G).
    rewrite Forall_forall in G. apply (G m Hm). }
  assert (Hu : te2 (msg_union cfg) = None).
  { destruct (te2 (msg_union cfg)) eqn:E; [|reflexivity]. destruct (O2 (msg_union cfg)) as [X|(m & M1 & M2)]; [congruence| |].
    - destruct X. apply Hno; [apply wn_union|]. intros j J1 J2. apply (wn_gtype j J1 J2).
    - pose proof wn_mtype as W. rewrite Forall_forall in W. destruct (W m M1) as [_ W2]. congruence. }
  destruct (lay_union_total te2 (map (fun m => mkMemb (msg_struct cfg (fst m)) (fst m) None) ms) 0 1 []) as (u & Hlu).
  { apply Forall_map. exact D2. }
  { cbn [map app]. rewrite map_map. exact wn_msgs. }
  unfold gen_h. rewrite F1. cbn [obind fst]. eexists. exists (bindty (msg_union cfg) u te2). split; [reflexivity|].
  rewrite cc_h_app, R1. cbn [obind]. unfold msg_items. rewrite cc_h_app, R2. cbn [obind cc_h cc_hitem]. rewrite Hu, Hlu. reflexivity.
Qed.

(* ---------------------------------------------------------------- C file *)
Section CFile.
Variable te : tenv.
Hypothesis Hal : aligns te.
Hypothesis Hstr : forall j, In j all -> has_struct cfg te j.

Definition declared (ex : list fns) (j : gie) : Prop := gn j = None -> existsb (fun x => String.eqb (fn_dec x) (fn_dec (fns_of cfg j))) ex = true.
Definition einv (ex : list fns) (s : seenl) : Prop :=
  forall n d, In (n, d) s -> d = None /\ existsb (fun x => String.eqb (fn_dec x) (gc_proto cfg ++ "_dec_" ++ n)) ex = true.
Lemma existsb_incl {A} (f : A -> bool) l l' : incl l l' -> existsb f l = true -> existsb f l' = true.
Proof. rewrite !existsb_exists. intros HI (x & H1 & H2). exists x. auto. Qed.
Definition e_goal (f : seenl -> option (list citem * seenl)) (occ : list gie) : Prop :=
  forall ex s, einv ex s -> exists out s' ex', f s = Some (out, s') /\ (forall tb, cc_run ce te ex tb out = Some (ex', tb)) /\ einv ex' s' /\ incl ex ex'
    /\ forall j, In j occ -> declared ex' j.
Lemma walk_total_e l : closed ms l -> Forall (fun i => (forall j, In j (occs i) -> In j all) -> e_goal (externs cfg i) (occs i)) l ->
  e_goal (walk (externs cfg) l) (flat_map occs l).
Proof.
  intros HC HF. induction HF as [|i l Hi Hl IH]; intros ex s HI.
  - exists [], s, ex. split; [reflexivity|]. split; [reflexivity|]. split; [exact HI|]. split; [apply incl_refl|easy].
  - apply closed_cons in HC as [HC1 HC2]. destruct (Hi HC1 ex s HI) as (o1 & s1 & ex1 & F1 & R1 & I1 & E1 & D1).
    destruct (IH HC2 ex1 s1 I1) as (o2 & s2 & ex2 & F2 & R2 & I2 & E2 & D2). exists (o1 ++ o2)%list, s2, ex2. cbn [walk]. rewrite F1. cbn [obind snd]. rewrite F2. cbn [obind fst snd].
    split; [reflexivity|]. split; [intros tb; rewrite cc_run_app, R1; apply R2|]. split; [exact I2|]. split; [exact (incl_tran E1 E2)|].
    cbn [flat_map]. intros j Hj. apply in_app_or in Hj as [Hj|Hj]; [intros Hn; apply (existsb_incl _ _ _ E2), D1; assumption|auto].
Qed.
Lemma externs_total i : (forall j, In j (occs i) -> In j all) -> e_goal (externs cfg i) (occs i).
Proof.
  induction i as [m d|m d ies IH] using gie_ind'; intros HC ex s HI.
  - cbn [externs]. set (i := GIe m d None) in *. assert (Hi : In i all) by (apply HC, occs_self).
    destruct (seen_none (decenc i) s) as [[Es (e & He)]|[Es Hno]]; [intros T e He; apply (HI _ _ He)| |]; rewrite Es; cbn [obind fst snd].
    + exists [], s, ex. split; [reflexivity|]. split; [reflexivity|]. split; [exact HI|]. split; [apply incl_refl|]. intros j [<-|[]] _. apply (HI _ _ He).
    + rewrite trunc_id by (apply (wn_fshort i Hi eq_refl)). exists [CExtern (fns_of cfg i)], ((decenc i, None) :: s), (fns_of cfg i :: ex).
      split; [reflexivity|]. split; [reflexivity|]. split; [|split; [apply incl_tl, incl_refl|]].
      * intros n e [E|Hin]; [injection E as <- <-; split; [reflexivity|]; cbn [existsb fns_of fn_dec]; rewrite String.eqb_refl; reflexivity|].
        destruct (HI _ _ Hin) as [X1 X2]. split; [exact X1|]. cbn [existsb]. rewrite X2. apply orb_true_r.
      * intros j [<-|[]] _. cbn [existsb]. rewrite String.eqb_refl. reflexivity.
  - destruct (walk_total_e ies (closed_nested ms m d ies HC) IH ex s HI) as (o1 & s1 & ex1 & F1 & R1 & I1 & E1 & D1).
    exists o1, s1, ex1. split; [exact F1|]. split; [exact R1|]. split; [exact I1|]. split; [exact E1|]. intros j Hj.
    change (occs (GIe m d (Some ies))) with (GIe m d (Some ies) :: flat_map occs ies)%list in Hj. destruct Hj as [<-|Hj]; [discriminate|auto].
Qed.
Lemma msgs_total_e l : Forall (fun m => closed ms (snd m)) l -> e_goal (walk_msgs (externs cfg) l) (flat_map (fun m => flat_map occs (snd m)) l).
Proof.
  intros HC. induction HC as [|m l Hm Hl IH]; intros ex s HI.
  - exists [], s, ex. split; [reflexivity|]. split; [reflexivity|]. split; [exact HI|]. split; [apply incl_refl|easy].
  - destruct (walk_total_e (snd m) Hm (proj2 (Forall_forall _ _) (fun i _ => externs_total i)) ex s HI) as (o1 & s1 & ex1 & F1 & R1 & I1 & E1 & D1).
    destruct (IH ex1 s1 I1) as (o2 & s2 & ex2 & F2 & R2 & I2 & E2 & D2). exists (o1 ++ o2)%list, s2, ex2. cbn [walk_msgs]. rewrite F1. cbn [obind snd]. rewrite F2. cbn [obind fst snd].
    split; [reflexivity|]. split; [intros tb; rewrite cc_run_app, R1; apply R2|]. split; [exact I2|]. split; [exact (incl_tran E1 E2)|].
    cbn [flat_map]. intros j Hj. apply in_app_or in Hj as [Hj|Hj]; [intros Hn; apply (existsb_incl _ _ _ E2), D1; assumption|auto].
Qed.

(* tables *)
Definition tabled (tb : tables) (j : gie) : Prop := gn j <> None -> get (ies_in (tagname j)) tb <> None.
Lemma offset_some T ty n f : te T = Some ty -> get n (ty_fields ty) = Some f -> offset_of te T None n = Some (fi_ofs f, f).
Proof. intros H1 H2. unfold offset_of. rewrite H1. cbn [obind]. rewrite H2. reflexivity. Qed.
Lemma entry_total ex tb T ty i : In i all -> te T = Some ty -> Forall (holds_memb te (ty_fields ty)) (ie_members cfg i) -> declared ex i -> tabled tb i ->
  exists d, cc_entry te ce ex tb (ie_entry cfg T None i) = Some d.
Proof.
  intros Hi HT HM HD HB. destruct (holds_in cfg te T ty i HT HM) as ((t & o & Ht & Hget) & Hfl & Hcn). destruct (wn_tag i Hi) as [W1 W2].
  unfold cc_entry. cbn [ie_entry ce_tag ce_inst ce_obj ce_sub ce_memb ce_kind ce_multi ce_flag].
  destruct (ce (gc_tagp cfg ++ toupper (tagname i))) as [tag|]; [|easy]. cbn [obind].
  assert (exists ins, match g_inst (gm i) with Some x => v <-? ce x;; Some (Some v) | None => Some None end = Some ins) as [ins ->].
  { destruct (g_inst (gm i)) as [x|]; [|eauto]. specialize (W2 x eq_refl). destruct (ce x) as [v|]; [|easy]. cbn [obind]. eauto. }
  cbn [obind]. rewrite (offset_some T ty _ _ HT Hget). cbn [obind].
  match goal with |- exists d, obind ?m _ = _ => assert (exists mu, m = Some mu) as [mu ->] end.
  { destruct (N.eqb_spec (g_multi (gm i)) 0) as [E|E]; [eauto|]. destruct (Hcn E) as (u & uo & _ & Hg). rewrite (offset_some T ty _ _ HT Hg). cbn [obind snd fi_n]. eauto. }
  cbn [obind].
  assert (exists fl, match (if g_opt (gm i) then Some (flag_name (g_name (gm i))) else None) with
    | Some p => po <-? offset_of te T None p;; Some (Some (fst po)) | None => Some None end = Some fl) as [fl ->].
  { destruct (g_opt (gm i)); [|eauto]. destruct (Hfl eq_refl) as (u & uo & _ & Hg). rewrite (offset_some T ty _ _ HT Hg). cbn [obind]. eauto. }
  cbn [obind]. unfold declared, tabled in HD, HB. destruct (gn i) as [ies|].
  - destruct (get (ies_in (tagname i)) tb) as [ds|]; [cbn [obind]; eauto|]. destruct HB; congruence.
  - rewrite (HD eq_refl). eauto.
Qed.
Lemma entries_total ex tb T ty ies : closed ms ies -> te T = Some ty -> struct_of te (members cfg ies) ty ->
  (forall i, In i ies -> declared ex i /\ tabled tb i) -> exists ds, cc_entries te ce ex tb (map (ie_entry cfg T None) ies) = Some ds.
Proof.
  intros HC HT HS HB. destruct (struct_spec te _ ty Hal HS) as (_ & _ & HH & _ & _). clear HS. induction ies as [|i ies IH]; [eexists; reflexivity|].
  apply closed_cons in HC as [HC1 HC2]. unfold members in HH. cbn [flat_map] in HH. apply Forall_app in HH as [HH1 HH2].
  destruct (HB i (or_introl eq_refl)) as [D1 D2]. destruct (entry_total ex tb T ty i (HC1 i (occs_self i)) HT HH1 D1 D2) as (d & Hd).
  destruct (IH HC2 (fun j Hj => HB j (or_intror Hj)) HH2) as (ds & Hds). cbn [map cc_entries]. rewrite Hd, Hds. cbn [obind]. eauto.
Qed.

Record cinv (tb : tables) (s : seenl) : Prop := {
  ci_seen : forall n e, In (n, e) s -> exists j, In j all /\ gn j <> None /\ tagname j = n /\ e = Some (g_id (gd j)) /\ tabled tb j;
  ci_only : forall t, get t tb <> None -> exists j, In j all /\ gn j <> None /\ t = ies_in (tagname j) /\ exists e, In (tagname j, e) s }.
Definition keeps (tb tb' : tables) : Prop := forall t, get t tb <> None -> get t tb' <> None.
Lemma keeps_cons t ds tb : keeps tb ((t, ds) :: tb).
Proof. intros x Hx. rewrite get_cons. destruct (String.eqb t x); [discriminate|exact Hx]. Qed.
Lemma tabled_keeps tb tb' j : keeps tb tb' -> tabled tb j -> tabled tb' j.
Proof. intros HK H Hn. apply HK, H, Hn. Qed.
Definition c_goal (ex : list fns) (f : seenl -> option (list citem * seenl)) (occ : list gie) : Prop :=
  forall tb s, cinv tb s -> exists out s' tb', f s = Some (out, s') /\ cc_run ce te ex tb out = Some (ex, tb') /\ cinv tb' s' /\ keeps tb tb'
    /\ forall j, In j occ -> tabled tb' j.
Section Ex.
Variable ex : list fns.
Hypothesis Hex : forall j, In j all -> declared ex j.
Lemma walk_total_c l : closed ms l -> Forall (fun i => (forall j, In j (occs i) -> In j all) -> c_goal ex (nested_tables cfg i) (occs i)) l ->
  c_goal ex (walk (nested_tables cfg) l) (flat_map occs l).
Proof.
  intros HC HF. induction HF as [|i l Hi Hl IH]; intros tb s HI.
  - exists [], s, tb. split; [reflexivity|]. split; [reflexivity|]. split; [exact HI|]. split; [intros t Ht; exact Ht|easy].
  - apply closed_cons in HC as [HC1 HC2]. destruct (Hi HC1 tb s HI) as (o1 & s1 & tb1 & F1 & R1 & I1 & E1 & D1).
    destruct (IH HC2 tb1 s1 I1) as (o2 & s2 & tb2 & F2 & R2 & I2 & E2 & D2). exists (o1 ++ o2)%list, s2, tb2. cbn [walk]. rewrite F1. cbn [obind snd]. rewrite F2. cbn [obind fst snd].
    split; [reflexivity|]. split; [rewrite cc_run_app, R1; exact R2|]. split; [exact I2|]. split; [intros t Ht; apply E2, E1, Ht|].
    cbn [flat_map]. intros j Hj. apply in_app_or in Hj as [Hj|Hj]; [apply (tabled_keeps tb1); auto|auto].
Qed.
Lemma nested_total i : (forall j, In j (occs i) -> In j all) -> c_goal ex (nested_tables cfg i) (occs i).
Proof.
  induction i as [m d|m d ies IH] using gie_ind'; intros HC tb s HI.
  - exists [], s, tb. split; [reflexivity|]. split; [reflexivity|]. split; [exact HI|]. split; [intros t Ht; exact Ht|]. intros j [<-|[]] Hn. easy.
  - destruct (walk_total_c ies (closed_nested ms m d ies HC) IH tb s HI) as (o1 & s1 & tb1 & F1 & R1 & I1 & E1 & D1).
    cbn [nested_tables]. rewrite F1. cbn [obind fst snd]. set (i := GIe m d (Some ies)) in *. assert (Hi : In i all) by (apply HC, occs_self).
    assert (Hg : gn i <> None) by discriminate. unfold seen. destruct (find (fun e => String.eqb (fst e) (tagname i)) s1) as [[n e]|] eqn:Ef.
    + apply find_some in Ef as [Ef1 Ef2]. cbn in Ef2. apply String.eqb_eq in Ef2. subst n. destruct (ci_seen _ _ I1 _ _ Ef1) as (j & J1 & J2 & J3 & J4 & J5). subst e.
      cbn [snd deq]. rewrite <- (wn_group i j Hi J1 Hg J2 (eq_sym J3)). change (g_id (gd i)) with (g_id d). rewrite N.eqb_refl. cbn [obind fst snd].
      exists (o1 ++ [])%list, s1, tb1. rewrite app_nil_r. split; [reflexivity|]. split; [exact R1|]. split; [exact I1|]. split; [exact E1|].
      intros x Hx. change (occs i) with (i :: flat_map occs ies)%list in Hx. destruct Hx as [<-|Hx]; [|auto]. intros _. rewrite <- J3. apply J5, J2.
    + cbn [obind fst snd]. rewrite trunc_id by (apply (wn_short i Hi Hg)).
      assert (Hh : has (ies_in (tagname i)) tb1 = false).
      { destruct (has (ies_in (tagname i)) tb1) eqn:Eh; [|reflexivity]. apply has_get in Eh. destruct (ci_only _ _ I1 _ Eh) as (j & J1 & J2 & J3 & e & J4).
        unfold ies_in in J3. apply app_inj_prefix in J3. rewrite <- J3 in J4. apply (find_none _ _ Ef) in J4. cbn in J4. rewrite String.eqb_refl in J4. discriminate. }
      destruct (Hstr i Hi ies eq_refl) as (ty & T1 & T2).
      destruct (entries_total ex tb1 (dtype cfg i) ty ies (closed_nested ms m d ies HC) T1 T2) as (ds & Hds).
      { intros j Hj. assert (Hj' : In j (flat_map occs ies)) by (apply in_flat_map; exists j; split; [exact Hj|apply occs_self]). split; [apply Hex, (closed_nested ms m d ies HC), Hj'|apply D1, Hj']. }
      eexists. exists ((tagname i, Some (g_id d)) :: s1), ((ies_in (tagname i), ds) :: tb1).
      split; [reflexivity|]. split; [rewrite cc_run_app, R1; cbn [obind fst snd cc_run]; rewrite Hh, Hds; reflexivity|].
      pose proof (keeps_cons (ies_in (tagname i)) ds tb1) as K2.
      assert (Hself : tabled ((ies_in (tagname i), ds) :: tb1) i) by (intros _; rewrite get_cons, String.eqb_refl; discriminate).
      split; [constructor|split; [intros t Ht; apply K2, E1, Ht|]].
      * intros n e [E|Hin]; [injection E as <- <-; exists i; auto|]. destruct (ci_seen _ _ I1 _ _ Hin) as (j & J1 & J2 & J3 & J4 & J5). exists j. repeat split; auto. apply (tabled_keeps tb1); assumption.
      * intros t. rewrite get_cons. destruct (String.eqb_spec (ies_in (tagname i)) t) as [<-|_].
        { intros _. exists i. repeat split; auto. exists (Some (g_id d)). left. reflexivity. }
        { intros Ht. destruct (ci_only _ _ I1 _ Ht) as (j & J1 & J2 & J3 & e & J4). exists j. repeat split; auto. exists e. right. exact J4. }
      * intros j Hj. change (occs i) with (i :: flat_map occs ies)%list in Hj. destruct Hj as [<-|Hj]; [exact Hself|]. apply (tabled_keeps tb1); auto.
Qed.
Lemma msgs_total_c l : Forall (fun m => closed ms (snd m)) l -> c_goal ex (walk_msgs (nested_tables cfg) l) (flat_map (fun m => flat_map occs (snd m)) l).
Proof.
  intros HC. induction HC as [|m l Hm Hl IH]; intros tb s HI.
  - exists [], s, tb. split; [reflexivity|]. split; [reflexivity|]. split; [exact HI|]. split; [intros t Ht; exact Ht|easy].
  - destruct (walk_total_c (snd m) Hm (proj2 (Forall_forall _ _) (fun i _ => nested_total i)) tb s HI) as (o1 & s1 & tb1 & F1 & R1 & I1 & E1 & D1).
    destruct (IH tb1 s1 I1) as (o2 & s2 & tb2 & F2 & R2 & I2 & E2 & D2). exists (o1 ++ o2)%list, s2, tb2. cbn [walk_msgs]. rewrite F1. cbn [obind snd]. rewrite F2. cbn [obind fst snd].
    split; [reflexivity|]. split; [rewrite cc_run_app, R1; exact R2|]. split; [exact I2|]. split; [intros t Ht; apply E2, E1, Ht|].
    cbn [flat_map]. intros j Hj. apply in_app_or in Hj as [Hj|Hj]; [apply (tabled_keeps tb1); auto|auto].
Qed.

Variable u : tyinfo.
Hypothesis Hu : te (msg_union cfg) = Some u.
Hypothesis Hum : Forall (union_has cfg te u) ms.
Hypothesis Hmsg : Forall (msg_has cfg te) ms.
Lemma msg_tables_total l : incl l ms -> NoDup (map fst l) -> forall tb, (forall j, In j all -> tabled tb j) ->
  Forall (fun m => get (ies_in_msg (fst m)) tb = None) l ->
  exists tb', cc_run ce te ex tb (map (msg_table_item cfg) l) = Some (ex, tb') /\ Forall (fun m => get (ies_in_msg (fst m)) tb' <> None) l /\ keeps tb tb'.
Proof.
  induction l as [|m l IH]; intros HI HN tb HB HF.
  - exists tb. repeat split; auto. intros t Ht. exact Ht.
  - inversion_clear HF as [|? ? HF1 HF2]. cbn [map] in HN. inversion_clear HN as [|? ? HN1 HN2]. assert (Hm : In m ms) by (apply HI; left; reflexivity).
    assert (Hh : has (ies_in_msg (fst m)) tb = false) by (destruct (has (ies_in_msg (fst m)) tb) eqn:E; [|reflexivity]; apply has_get in E; congruence).
    rewrite Forall_forall in Hmsg. destruct (Hmsg m Hm) as (ty & T1 & T2). pose proof (closed_all ms) as HC. rewrite Forall_forall in HC. specialize (HC m Hm).
    destruct (entries_total ex tb (msg_struct cfg (fst m)) ty (snd m) HC T1 T2) as (ds & Hds).
    { intros j Hj. assert (Hj' : In j all) by (apply HC, in_flat_map; exists j; split; [exact Hj|apply occs_self]). auto. }
    pose proof (keeps_cons (ies_in_msg (fst m)) ds tb) as K1.
    destruct (IH (fun x Hx => HI x (or_intror Hx)) HN2 ((ies_in_msg (fst m), ds) :: tb)) as (tb' & R & D & K2).
    + intros j Hj. apply (tabled_keeps tb); auto.
    + rewrite Forall_forall in HF2 |- *. intros x Hx. rewrite get_cons. destruct (String.eqb_spec (ies_in_msg (fst m)) (ies_in_msg (fst x))) as [E|_]; [|auto].
      unfold ies_in_msg in E. apply app_inj_prefix in E. destruct HN1. rewrite E. apply in_map. exact Hx.
    + exists tb'. cbn [map cc_run msg_table_item]. rewrite Hh, (entries_union cfg ms ce te u Hu Hum m ex tb (snd m) Hm), Hds. cbn [obind]. split; [exact R|].
      split; [|intros t Ht; apply K2, K1, Ht]. constructor; [|exact D]. apply K2. rewrite get_cons, String.eqb_refl. discriminate.
Qed.
End Ex.
Lemma cc_c_run cs cs' : forall ex tb st, cc_run ce te ex tb cs = Some st -> cc_c te ce ex tb (cs ++ cs') = cc_c te ce (fst st) (snd st) cs'.
Proof.
  induction cs as [|c cs IH]; intros ex tb st H; [injection H as <-; reflexivity|]. cbn [app]. destruct c as [f|t es|l]; [| |discriminate]; cbn [cc_c cc_run] in *; [apply IH; exact H|].
  destruct (has t tb); [discriminate|]. ob H ds Hds. rewrite Hds. cbn [obind]. apply IH. exact H.
Qed.
Lemma cfile_total u : te (msg_union cfg) = Some u -> Forall (union_has cfg te u) ms -> Forall (msg_has cfg te) ms ->
  exists cs defs, gen_c cfg ms = Some cs /\ cc_c te ce [] [] cs = Some defs.
Proof.
  intros Hu Hum Hmsg. destruct (msgs_total_e ms (closed_all ms) [] []) as (o1 & s1 & ex & F1 & R1 & _ & _ & D1); [easy|].
  destruct (msgs_total_c ex D1 ms (closed_all ms) [] []) as (o2 & s2 & tb & F2 & R2 & I2 & _ & D2); [constructor; easy|].
  destruct (msg_tables_total ex D1 u Hu Hum Hmsg ms (incl_refl ms) wn_msgs tb D2) as (tb' & R3 & D3 & _).
  { apply Forall_forall. intros m Hm. destruct (get (ies_in_msg (fst m)) tb) eqn:E; [|reflexivity]. assert (E' : get (ies_in_msg (fst m)) tb <> None) by congruence.
    destruct (ci_only _ _ I2 _ E') as (j & J1 & J2 & J3 & _). destruct (wn_gtype j J1 J2) as (_ & _ & G). rewrite Forall_forall in G. destruct (G m Hm) as [_ G2].
    change (ies_in_msg (fst m)) with (ies_in ("msg_" ++ fst m)) in J3. unfold ies_in in J3. apply app_inj_prefix in J3. congruence. }
  unfold gen_c. rewrite F1. cbn [obind]. rewrite F2. cbn [obind fst]. eexists.
  assert (exists defs, cc_defs ce tb' (map (fun m => (gc_msgt cfg ++ toupper (fst m), ies_in_msg (fst m))) ms) = Some defs) as (defs & Hdefs).
  { pose proof wn_mtag as W. revert W D3. generalize ms. intros l. induction l as [|m l IH]; intros W D3; [eexists; reflexivity|]. inversion_clear W as [|? ? W1 W2]. inversion_clear D3 as [|? ? X1 X2].
    destruct (IH W2 X2) as (defs & E). cbn [map cc_defs]. destruct (ce (gc_msgt cfg ++ toupper (fst m))) as [t|]; [|easy]. destruct (get (ies_in_msg (fst m)) tb') as [ds|]; [|easy].
    cbn [obind]. rewrite E. cbn [obind]. eauto. }
  exists defs. split; [reflexivity|]. rewrite (cc_c_run _ _ _ _ _ (R1 [])). cbn [fst snd]. rewrite (cc_c_run _ _ _ _ _ R2). cbn [fst snd]. rewrite (cc_c_run _ _ _ _ _ R3). exact Hdefs.
Qed.
End CFile.

Lemma gen_compiles : (forall T ty, te0 T = Some ty -> 0 < ty_align ty) -> exists r, gen_and_compile cfg te0 ce ms = Some r.
Proof.
  intros HA. destruct header_total as (hs & te & H1 & H2).
  destruct (header_ok cfg ms wn_cons wn_short te0 hs te HA H1 H2) as (_ & A1 & S1 & M1 & u & U1 & U2).
  destruct (cfile_total te A1 S1 u U1 U2 M1) as (cs & defs & C1 & C2).
  exists (mkGen te defs). unfold gen_and_compile. rewrite H1, C1. cbn [obind]. rewrite H2. cbn [obind]. rewrite C2. reflexivity.
Qed.
End C.
