(* GenProofs.v -- if the generated code compiles, its tables mean what the definitions mean and fit the generated structs *)
From Coq Require Import String Ascii.
From Verif Require Import Base BaseProofs GtlvModel DecEncModel MemModel MemSpec GenModel GenSpec.
Local Open Scope string_scope.
Local Open Scope N_scope.

Lemma obind_some {A B} (x : option A) (f : A -> option B) y : obind x f = Some y -> exists a, x = Some a /\ f a = Some y.
Proof. destruct x as [a|]; cbn; [|discriminate]. intros H. exists a. auto. Qed.
Ltac ob H x Hx := apply obind_some in H; destruct H as (x & Hx & H).

(* ---------------------------------------------------------------- names *)
Lemma upper_char_up c : upper_char c = up c.
Proof. destruct c as [[] [] [] [] [] [] [] []]; vm_compute; reflexivity. Qed.
Lemma upper_trunc n : forall s, upper (trunc n s) = upcase n s.
Proof.
  induction n as [|n IH]; intros s; [destruct s; reflexivity|]. destruct s as [|c s]; [reflexivity|]. unfold trunc in *. cbn [substring upper upcase]. rewrite upper_char_up, IH. reflexivity.
Qed.
Lemma toupper_upcase s : toupper s = upcase 127 s.
Proof. apply upper_trunc. Qed.
Lemma trunc_id n s : (String.length s <= n)%nat -> trunc n s = s.
Proof.
  unfold trunc. revert n. induction s as [|c s IH]; intros n H; [destruct n; reflexivity|]. cbn [String.length] in H. destruct n as [|n]; [lia|].
  cbn [substring]. rewrite IH by lia. reflexivity.
Qed.
Lemma get_some {A} n (l : list (string * A)) x : get n l = Some x -> In (n, x) l.
Proof.
  unfold get. destruct (find _ l) as [[m y]|] eqn:E; [|discriminate]. cbn. intros H. injection H as <-. apply find_some in E as [E1 E2].
  cbn in E2. apply String.eqb_eq in E2. subst. exact E1.
Qed.
Lemma get_cons {A} n m (x : A) l : get n ((m, x) :: l) = if String.eqb m n then Some x else get n l.
Proof. unfold get. cbn [find fst]. destruct (String.eqb m n); reflexivity. Qed.
Lemma has_get {A} n (l : list (string * A)) : has n l = true <-> get n l <> None.
Proof.
  unfold has, get. induction l as [|[m x] l IH]; cbn [existsb find fst]; [split; [discriminate|easy]|].
  destruct (String.eqb m n); [split; [discriminate|reflexivity]|]. exact IH.
Qed.
Lemma has_in {A} n (l : list (string * A)) : has n l = true <-> In n (map fst l).
Proof.
  unfold has. rewrite existsb_exists, in_map_iff. split.
  - intros (e & He & E). apply String.eqb_eq in E. exists e. auto.
  - intros (e & E & He). exists e. split; [exact He|]. apply String.eqb_eq. exact E.
Qed.
Lemma get_app {A} n (a b : list (string * A)) : get n (a ++ b) = if has n a then get n a else get n b.
Proof.
  induction a as [|[m x] a IH]; [reflexivity|]. cbn [app]. rewrite !get_cons. unfold has. cbn [existsb fst]. destruct (String.eqb m n); [reflexivity|exact IH].
Qed.

Lemma nodup_app {A} (a b : list A) : NoDup a -> NoDup b -> (forall x, In x a -> ~ In x b) -> NoDup (a ++ b).
Proof.
  induction 1 as [|x a Hx Ha IH]; intros Hb Hd; [exact Hb|]. cbn [app]. constructor; [|apply IH; [exact Hb|intros y Hy; apply Hd; right; exact Hy]].
  intros Hi. apply in_app_or in Hi as [Hi|Hi]; [contradiction|]. apply (Hd x); [left; reflexivity|exact Hi].
Qed.

(* ---------------------------------------------------------------- struct layout *)
Definition ext (te te' : tenv) : Prop := forall T ty, te T = Some ty -> te' T = Some ty.
Definition aligns (te : tenv) : Prop := forall T ty, te T = Some ty -> 0 < ty_align ty.
Lemma ext_refl te : ext te te.
Proof. intros T ty H. exact H. Qed.
Lemma ext_trans a b c : ext a b -> ext b c -> ext a c.
Proof. intros H1 H2 T ty H. auto. Qed.

Lemma align_up_le x a : 0 < a -> x <= align_up x a.
Proof.
  intros H. unfold align_up. pose proof (N.div_mod' (x + a - 1) a) as E. pose proof (N.mod_upper_bound (x + a - 1) a ltac:(lia)) as E2.
  rewrite N.mul_comm. lia.
Qed.

Lemma lay_struct_ext te te' ms : ext te te' -> forall c a fs ty, lay_struct te ms c a fs = Some ty -> lay_struct te' ms c a fs = Some ty.
Proof.
  intros HE. induction ms as [|m ms IH]; intros c a fs ty H; [exact H|]. cbn [lay_struct] in *. ob H t Ht. rewrite (HE _ _ Ht). cbn [obind].
  destruct (has (mb_name m) fs); [discriminate|]. apply IH. exact H.
Qed.
Lemma lay_union_ext te te' ms : ext te te' -> forall c a fs ty, lay_union te ms c a fs = Some ty -> lay_union te' ms c a fs = Some ty.
Proof.
  intros HE. induction ms as [|m ms IH]; intros c a fs ty H; [exact H|]. cbn [lay_union] in *. ob H t Ht. rewrite (HE _ _ Ht). cbn [obind].
  destruct (has (mb_name m) fs); [discriminate|]. apply IH. exact H.
Qed.

Definition freg (f : finfo) : region := (fi_ofs f, fi_size f).
(* the members of [ms] are in [fs] *)
Definition holds_memb (te : tenv) (fs : list (string * finfo)) (m : member) : Prop :=
  exists t o, te (mb_type m) = Some t /\ get (mb_name m) fs = Some (mkFi o (mb_type m) (ty_size t) (mb_arr m)).

Lemma lay_struct_spec te ms : aligns te -> forall c a fs ty, lay_struct te ms c a fs = Some ty -> 0 < a ->
  NoDup (map fst fs) -> (forall n f, get n fs = Some f -> fi_ofs f + fi_size f <= c) ->
  (forall n1 n2 f1 f2, n1 <> n2 -> get n1 fs = Some f1 -> get n2 fs = Some f2 -> apart (freg f1) (freg f2)) ->
  0 < ty_align ty /\ NoDup (map fst fs ++ map mb_name ms)
  /\ (forall n f, get n fs = Some f -> get n (ty_fields ty) = Some f)
  /\ Forall (holds_memb te (ty_fields ty)) ms
  /\ (forall n f, get n (ty_fields ty) = Some f -> fi_ofs f + fi_size f <= ty_size ty)
  /\ (forall n1 n2 f1 f2, n1 <> n2 -> get n1 (ty_fields ty) = Some f1 -> get n2 (ty_fields ty) = Some f2 -> apart (freg f1) (freg f2)).
Proof.
  intros HA. induction ms as [|m ms IH]; intros c a fs ty H Ha HN HI HD.
  - cbn [lay_struct] in H. injection H as <-. cbn [ty_align ty_fields ty_size map]. rewrite app_nil_r. repeat split; auto.
    intros n f Hf. specialize (HI n f Hf). pose proof (align_up_le c a Ha). lia.
  - cbn [lay_struct] in H. ob H t Ht. destruct (has (mb_name m) fs) eqn:Hh; [discriminate|].
    set (f0 := mkFi (align_up c (ty_align t)) (mb_type m) (ty_size t) (mb_arr m)) in *. change (fi_ofs f0) with (align_up c (ty_align t)) in *.
    pose proof (align_up_le c (ty_align t) (HA _ _ Ht)) as HL.
    assert (Hg : forall n f, get n (fs ++ [(mb_name m, f0)]) = Some f -> get n fs = Some f \/ (n = mb_name m /\ f = f0)).
    { intros n f. rewrite get_app. destruct (has n fs) eqn:En; [auto|]. rewrite get_cons. destruct (String.eqb_spec (mb_name m) n); [|discriminate].
      intros E. injection E as <-. auto. }
    assert (Hg2 : forall n f, get n fs = Some f -> get n (fs ++ [(mb_name m, f0)]) = Some f).
    { intros n f E. rewrite get_app. assert (has n fs = true) as -> by (apply has_get; congruence). exact E. }
    assert (HNn : get (mb_name m) fs = None) by (destruct (get (mb_name m) fs) eqn:E; [|reflexivity]; assert (has (mb_name m) fs = true) by (apply has_get; congruence); congruence).
    assert (HN' : NoDup (map fst (fs ++ [(mb_name m, f0)]))).
    { rewrite map_app. cbn [map fst]. apply nodup_app; [exact HN|constructor; [easy|constructor]|]. intros x Hx [<-|[]]. apply has_in in Hx. congruence. }
    apply IH in H; [|lia|exact HN'| |].
    + destruct H as (H1 & H2 & H3 & H4 & H5 & H6). split; [exact H1|]. split; [rewrite map_app in H2; cbn [map fst] in H2; rewrite <- app_assoc in H2; exact H2|].
      split; [intros n f E; apply H3, Hg2, E|]. split; [|split; assumption]. constructor; [|exact H4].
      exists t, (align_up c (ty_align t)). split; [exact Ht|]. apply H3. rewrite get_app, Hh, get_cons, String.eqb_refl. reflexivity.
    + intros n f E. apply Hg in E as [E|[-> ->]]; [specialize (HI _ _ E); lia|]. change (fi_ofs f0) with (align_up c (ty_align t)). lia.
    + intros n1 n2 f1 f2 Hne E1 E2. apply Hg in E1, E2. unfold apart, freg. cbn [fst snd].
      destruct E1 as [E1|[-> ->]], E2 as [E2|[-> ->]].
      * exact (HD _ _ _ _ Hne E1 E2).
      * left. specialize (HI _ _ E1). change (fi_ofs f0) with (align_up c (ty_align t)). lia.
      * right. specialize (HI _ _ E2). change (fi_ofs f0) with (align_up c (ty_align t)). lia.
      * easy.
Qed.

Definition struct_of (te : tenv) (ms : list member) (ty : tyinfo) : Prop := lay_struct te ms 0 1 [] = Some ty.
Lemma struct_spec te ms ty : aligns te -> struct_of te ms ty ->
  0 < ty_align ty /\ NoDup (map mb_name ms) /\ Forall (holds_memb te (ty_fields ty)) ms
  /\ (forall n f, get n (ty_fields ty) = Some f -> fi_ofs f + fi_size f <= ty_size ty)
  /\ (forall n1 n2 f1 f2, n1 <> n2 -> get n1 (ty_fields ty) = Some f1 -> get n2 (ty_fields ty) = Some f2 -> apart (freg f1) (freg f2)).
Proof.
  intros HA H. apply (lay_struct_spec te ms HA) in H; [|lia|constructor|discriminate|discriminate].
  destruct H as (H1 & H2 & _ & H4 & H5 & H6). cbn [map app] in H2. repeat split; auto.
Qed.
Lemma struct_ext te te' ms ty : ext te te' -> struct_of te ms ty -> struct_of te' ms ty.
Proof. intros HE. apply lay_struct_ext. exact HE. Qed.

Lemma lay_union_spec te ms : aligns te -> forall c a fs ty, lay_union te ms c a fs = Some ty -> 0 < a ->
  (forall n f, get n fs = Some f -> fi_ofs f = 0 /\ fi_size f <= c) ->
  0 < ty_align ty /\ (forall n f, get n fs = Some f -> get n (ty_fields ty) = Some f)
  /\ Forall (holds_memb te (ty_fields ty)) ms
  /\ (forall n f, get n (ty_fields ty) = Some f -> fi_ofs f = 0 /\ fi_size f <= ty_size ty).
Proof.
  intros HA. induction ms as [|m ms IH]; intros c a fs ty H Ha HI.
  - cbn [lay_union] in H. injection H as <-. cbn [ty_align ty_fields ty_size]. repeat split; auto.
    + destruct (HI _ _ H). assumption.
    + destruct (HI _ _ H). pose proof (align_up_le c a Ha). lia.
  - cbn [lay_union] in H. ob H t Ht. destruct (has (mb_name m) fs) eqn:Hh; [discriminate|]. set (f0 := mkFi 0 (mb_type m) (ty_size t) (mb_arr m)) in *.
    apply IH in H; [|lia|].
    + destruct H as (H1 & H3 & H4 & H5). split; [exact H1|]. split.
      { intros n f E. apply H3. rewrite get_app. assert (has n fs = true) as -> by (apply has_get; congruence). exact E. }
      split; [|exact H5]. constructor; [|exact H4]. exists t, 0. split; [exact Ht|]. apply H3. rewrite get_app, Hh, get_cons, String.eqb_refl. reflexivity.
    + intros n f. rewrite get_app. destruct (has n fs); [intros E; destruct (HI _ _ E); lia|]. rewrite get_cons. destruct (String.eqb (mb_name m) n); [|discriminate].
      intros E. injection E as <-. cbn [fi_ofs f0]. lia.
Qed.

(* ---------------------------------------------------------------- the header *)
Lemma cc_h_app te a b : cc_h te (a ++ b) = obind (cc_h te a) (fun te' => cc_h te' b).
Proof. revert te. induction a as [|h a IH]; intros te; [reflexivity|]. cbn [app cc_h]. destruct (cc_hitem te h); cbn [obind]; [apply IH|reflexivity]. Qed.
Lemma bindty_ext t x te : te t = None -> ext te (bindty t x te).
Proof. intros H T ty E. unfold bindty. destruct (String.eqb_spec t T); [subst; congruence|exact E]. Qed.
Lemma bindty_same t x te : bindty t x te t = Some x.
Proof. unfold bindty. rewrite String.eqb_refl. reflexivity. Qed.
Lemma bindty_aligns t x te : 0 < ty_align x -> aligns te -> aligns (bindty t x te).
Proof. intros H HA T ty. unfold bindty. destruct (String.eqb t T); [intros E; injection E as <-; exact H|apply HA]. Qed.
Lemma cc_hitem_struct te t ms te' : aligns te -> cc_hitem te (HStruct t ms) = Some te' ->
  te t = None /\ ext te te' /\ aligns te' /\ exists ty, te' t = Some ty /\ struct_of te' ms ty.
Proof.
  unfold cc_hitem. intros HA H. destruct (te t) eqn:E; [discriminate|]. ob H ty Hty. injection H as <-.
  pose proof (bindty_ext t ty te E) as HX. split; [reflexivity|]. split; [exact HX|].
  split; [apply bindty_aligns; [apply (struct_spec te ms ty HA Hty)|exact HA]|]. exists ty. split; [apply bindty_same|]. apply (struct_ext te); assumption.
Qed.

Section Gen.
Variable cfg : gcfg.
Variable ms : list gmsg.
Notation all := (all_ies ms).
Definition closed (l : list gie) : Prop := forall j, In j (flat_map occs l) -> In j all.
Lemma occs_self i : In i (occs i).
Proof. destruct i. left. reflexivity. Qed.
Lemma closed_cons i l : closed (i :: l) -> (forall j, In j (occs i) -> In j all) /\ closed l.
Proof. unfold closed. cbn [flat_map]. split; intros j Hj; apply H, in_or_app; auto. Qed.
Lemma closed_nested m d ies : (forall j, In j (occs (GIe m d (Some ies))) -> In j all) -> closed ies.
Proof. intros H j Hj. apply H. cbn [occs]. right. exact Hj. Qed.
Lemma closed_all : Forall (fun m => closed (snd m)) ms.
Proof. apply Forall_forall. intros m Hm j Hj. unfold all_ies. apply in_flat_map. exists m. auto. Qed.

(* induction on the nesting of definitions *)
Lemma gie_ind' (P : gie -> Prop) : (forall m d, P (GIe m d None)) -> (forall m d ies, Forall P ies -> P (GIe m d (Some ies))) -> forall i, P i.
Proof.
  intros H1 H2. fix IH 1. intros [m d [ies|]]; [|apply H1]. apply H2. induction ies as [|i ies IHl]; constructor; [apply IH|exact IHl].
Qed.

Hypothesis Hcons : types_consistent cfg ms.
Hypothesis Hshort : names_short cfg ms.

(* a group has its struct *)
Definition has_struct (te : tenv) (j : gie) : Prop :=
  forall ies, gn j = Some ies -> exists ty, te (dtype cfg j) = Some ty /\ struct_of te (members cfg ies) ty.
Definition seen_h (te : tenv) (s : seenl) : Prop :=
  forall T d, In (T, d) s -> exists j ies, In j all /\ gn j = Some ies /\ dtype cfg j = T /\ has_struct te j.
Lemma has_struct_ext te te' j : ext te te' -> has_struct te j -> has_struct te' j.
Proof. intros HE H ies E. destruct (H ies E) as (ty & H1 & H2). exists ty. split; [auto|]. apply (struct_ext te); assumption. Qed.
Lemma seen_h_ext te te' s : ext te te' -> seen_h te s -> seen_h te' s.
Proof.
  intros HE H T d E. destruct (H T d E) as (j & ies & H1 & H2 & H3 & H4). exists j, ies. repeat split; auto. apply (has_struct_ext te); assumption.
Qed.
Lemma seen_find str d s r : seen str d s = Some r ->
  (fst r = true /\ snd r = s /\ exists e, In (str, e) s /\ deq d e = true) \/ (fst r = false /\ snd r = (trunc 255 str, d) :: s /\ forall e, ~ In (str, e) s).
Proof.
  unfold seen. destruct (find _ s) as [[n e]|] eqn:E.
  - apply find_some in E as [E1 E2]. cbn in E2. apply String.eqb_eq in E2. subst n. cbn [snd]. destruct (deq d e) eqn:Ed; [|discriminate].
    intros H. injection H as <-. left. repeat split. exists e. auto.
  - intros H. injection H as <-. right. repeat split. intros e He. apply (find_none _ _ E) in He. cbn in He. rewrite String.eqb_refl in He. discriminate.
Qed.

Lemma structs_ok i : (forall j, In j (occs i) -> In j all) -> forall s out s' te te',
  aligns te -> seen_h te s -> auto_structs cfg i s = Some (out, s') -> cc_h te out = Some te' ->
  ext te te' /\ aligns te' /\ seen_h te' s' /\ forall j, In j (occs i) -> has_struct te' j.
Proof.
  induction i as [m d|m d ies IH] using gie_ind'; intros HC s out s' te te' HA HS H HT.
  - cbn [auto_structs] in H. injection H as <- <-. cbn [cc_h] in HT. injection HT as <-. split; [apply ext_refl|]. repeat split; auto.
    intros j [<-|[]] ies E. discriminate.
  - cbn [auto_structs] in H. ob H a Ha. ob H b Hb. injection H as <- <-. rewrite cc_h_app in HT. ob HT te1 Ht1.
    assert (H1 : ext te te1 /\ aligns te1 /\ seen_h te1 (snd a) /\ forall j, In j (flat_map occs ies) -> has_struct te1 j).
    { clear Hb b HT. apply closed_nested in HC. revert s a te te1 HA HS Ha Ht1. induction IH as [|i l Hi Hl IHl]; intros s a te te1 HA HS Ha Ht1.
      - cbn [walk] in Ha. injection Ha as <-. cbn [fst cc_h] in Ht1. injection Ht1 as <-. split; [apply ext_refl|]. repeat split; auto. easy.
      - cbn [walk] in Ha. ob Ha x Hx. ob Ha y Hy. injection Ha as <-. cbn [fst snd] in *. rewrite cc_h_app in Ht1. ob Ht1 te2 Ht2.
        apply closed_cons in HC as [HC1 HC2]. destruct x as [xo xs]. destruct (Hi HC1 s xo xs te te2 HA HS Hx Ht2) as (E1 & A1 & S1 & O1).
        destruct (IHl HC2 xs y te2 te1 A1 S1 Hy Ht1) as (E2 & A2 & S2 & O2). split; [exact (ext_trans _ _ _ E1 E2)|]. split; [exact A2|]. split; [exact S2|].
        cbn [flat_map]. intros j Hj. apply in_app_or in Hj as [Hj|Hj]; [apply (has_struct_ext te2); auto|auto]. }
    destruct H1 as (E1 & A1 & S1 & O1). set (i := GIe m d (Some ies)) in *. assert (Hi : In i all) by (apply HC, occs_self).
    destruct (seen_find _ _ _ _ Hb) as [(Eb1 & Eb2 & e & He & _)|(Eb1 & Eb2 & _)]; rewrite Eb1 in HT; rewrite Eb2; cbn [cc_h] in HT.
    + injection HT as <-. repeat split; auto. intros j Hj. change (occs i) with (i :: flat_map occs ies)%list in Hj. destruct Hj as [<-|Hj]; [|auto].
      intros ies' E. injection E as <-. destruct (S1 _ _ He) as (j & jes & J1 & J2 & J3 & J4). destruct (J4 _ J2) as (ty & T1 & T2). exists ty.
      rewrite J3 in T1. split; [exact T1|]. rewrite (Hcons i j ies jes Hi J1 eq_refl J2 (eq_sym J3)). exact T2.
    + ob HT te2 Ht2. injection HT as <-. apply cc_hitem_struct in Ht2 as (_ & E2 & A2 & ty & T1 & T2); [|exact A1].
      assert (Hself : has_struct te2 i) by (intros ies' E; injection E as <-; exists ty; auto).
      split; [exact (ext_trans _ _ _ E1 E2)|]. split; [exact A2|]. split.
      * intros T e [E|Hin].
        { injection E as <- _. exists i, ies. repeat split; auto. symmetry. apply trunc_id. apply (Hshort i Hi). discriminate. }
        { apply (seen_h_ext te1 te2 _ E2 S1 _ _ Hin). }
      * intros j Hj. change (occs i) with (i :: flat_map occs ies)%list in Hj. destruct Hj as [<-|Hj]; [exact Hself|]. apply (has_struct_ext te1); auto.
Qed.
Lemma walk_structs_ok l : closed l -> forall s a te te', aligns te -> seen_h te s -> walk (auto_structs cfg) l s = Some a -> cc_h te (fst a) = Some te' ->
  ext te te' /\ aligns te' /\ seen_h te' (snd a) /\ forall j, In j (flat_map occs l) -> has_struct te' j.
Proof.
  induction l as [|i l IH]; intros HC s a te te' HA HS H HT.
  - cbn [walk] in H. injection H as <-. cbn [fst cc_h] in HT. injection HT as <-. split; [apply ext_refl|]. repeat split; auto. easy.
  - cbn [walk] in H. ob H x Hx. ob H y Hy. injection H as <-. cbn [fst snd] in *. rewrite cc_h_app in HT. ob HT te2 Ht2.
    apply closed_cons in HC as [HC1 HC2]. destruct x as [xo xs]. destruct (structs_ok i HC1 s xo xs te te2 HA HS Hx Ht2) as (E1 & A1 & S1 & O1).
    destruct (IH HC2 xs y te2 te' A1 S1 Hy HT) as (E2 & A2 & S2 & O2). split; [exact (ext_trans _ _ _ E1 E2)|]. split; [exact A2|]. split; [exact S2|].
    cbn [flat_map]. intros j Hj. apply in_app_or in Hj as [Hj|Hj]; [apply (has_struct_ext te2); auto|auto].
Qed.
Lemma msgs_structs_ok l : Forall (fun m => closed (snd m)) l -> forall s a te te', aligns te -> seen_h te s ->
  walk_msgs (auto_structs cfg) l s = Some a -> cc_h te (fst a) = Some te' ->
  ext te te' /\ aligns te' /\ forall j, In j (flat_map (fun m => flat_map occs (snd m)) l) -> has_struct te' j.
Proof.
  induction l as [|m l IH]; intros HC s a te te' HA HS H HT.
  - cbn [walk_msgs] in H. injection H as <-. cbn [fst cc_h] in HT. injection HT as <-. split; [apply ext_refl|]. split; auto. easy.
  - cbn [walk_msgs] in H. ob H x Hx. ob H y Hy. injection H as <-. cbn [fst snd] in *. rewrite cc_h_app in HT. ob HT te2 Ht2.
    inversion_clear HC as [|? ? HC1 HC2]. destruct (walk_structs_ok _ HC1 s x te te2 HA HS Hx Ht2) as (E1 & A1 & S1 & O1).
    destruct (IH HC2 (snd x) y te2 te' A1 S1 Hy HT) as (E2 & A2 & O2). split; [exact (ext_trans _ _ _ E1 E2)|]. split; [exact A2|].
    cbn [flat_map]. intros j Hj. apply in_app_or in Hj as [Hj|Hj]; [apply (has_struct_ext te2); auto|auto].
Qed.
(* the structs of the messages *)
Definition msg_has (te : tenv) (m : gmsg) : Prop := exists ty, te (msg_struct cfg (fst m)) = Some ty /\ struct_of te (members cfg (snd m)) ty.
Lemma msg_structs_ok l : forall te te', aligns te -> cc_h te (map (fun m => HStruct (msg_struct cfg (fst m)) (members cfg (snd m))) l) = Some te' ->
  ext te te' /\ aligns te' /\ Forall (msg_has te') l.
Proof.
  induction l as [|m l IH]; intros te te' HA HT.
  - injection HT as <-. split; [apply ext_refl|]. auto.
  - cbn [map cc_h] in HT. ob HT te1 H1. apply cc_hitem_struct in H1 as (_ & E1 & A1 & ty & T1 & T2); [|exact HA].
    destruct (IH te1 te' A1 HT) as (E2 & A2 & O2). split; [exact (ext_trans _ _ _ E1 E2)|]. split; [exact A2|]. constructor; [|exact O2].
    exists ty. split; [apply E2, T1|]. apply (struct_ext te1); assumption.
Qed.
(* the whole header *)
Definition union_has (te : tenv) (u : tyinfo) (m : gmsg) : Prop :=
  exists t, te (msg_struct cfg (fst m)) = Some t /\ get (fst m) (ty_fields u) = Some (mkFi 0 (msg_struct cfg (fst m)) (ty_size t) None)
            /\ ty_size t <= ty_size u.
Lemma header_ok te0 hs te : aligns te0 -> gen_h cfg ms = Some hs -> cc_h te0 hs = Some te ->
  ext te0 te /\ aligns te /\ (forall j, In j all -> has_struct te j) /\ Forall (msg_has te) ms
  /\ exists u, te (msg_union cfg) = Some u /\ Forall (union_has te u) ms.
Proof.
  intros HA H HT. unfold gen_h in H. ob H a Ha. injection H as <-. rewrite cc_h_app in HT. ob HT te1 H1.
  destruct (msgs_structs_ok ms closed_all [] a te0 te1 HA (fun T d (Hf : In (T, d) []) => match Hf with end) Ha H1) as (E1 & A1 & O1).
  unfold msg_items in HT. rewrite cc_h_app in HT. ob HT te2 H2. destruct (msg_structs_ok ms te1 te2 A1 H2) as (E2 & A2 & O2).
  cbn [cc_h] in HT. ob HT te3 H3. injection HT as <-. unfold cc_hitem in H3. destruct (te2 (msg_union cfg)) eqn:Eu; [discriminate|]. ob H3 u Hu. injection H3 as <-.
  pose proof (bindty_ext (msg_union cfg) u te2 Eu) as E3.
  destruct (lay_union_spec te2 _ A2 _ _ _ _ Hu ltac:(lia) ltac:(discriminate)) as (U1 & _ & U3 & U4).
  split; [exact (ext_trans _ _ _ E1 (ext_trans _ _ _ E2 E3))|]. split; [apply bindty_aligns; assumption|].
  split; [intros j Hj; apply (has_struct_ext te1); [exact (ext_trans _ _ _ E2 E3)|apply O1, Hj]|].
  split.
  - rewrite Forall_forall in O2 |- *. intros m Hm. destruct (O2 m Hm) as (ty & T1 & T2). exists ty. split; [apply E3, T1|]. apply (struct_ext te2); assumption.
  - exists u. split; [apply bindty_same|]. rewrite Forall_map in U3. rewrite Forall_forall in U3 |- *. intros m Hm.
    destruct (U3 m Hm) as (t & o & T1 & T2). cbn [mb_type mb_name mb_arr] in T1, T2. destruct (U4 _ _ T2) as [Ho Hs]. cbn [fi_ofs] in Ho. subst o.
    exists t. split; [apply E3, T1|]. split; [exact T2|]. exact Hs.
Qed.
End Gen.
Lemma trunc_keep n s : trunc n s = keep n s.
Proof. revert s. induction n as [|n IH]; intros [|c s]; cbn; try reflexivity. f_equal. apply IH. Qed.
Lemma dtype_type_name cfg i : dtype cfg i = type_name (gc_dtp cfg) i.
Proof. destruct i as [[n o mx mm c] [id [t|] tg de] k]; [reflexivity|]. unfold dtype, type_name, tagname, orelse. cbn [gd gm g_dtype g_tag g_name]. destruct tg; apply trunc_keep. Qed.
