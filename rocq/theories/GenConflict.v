(* GenConflict.v -- conflicting definitions: which ones the generator and the compiler reject *)
From Coq Require Import String Ascii.
From Verif Require Import Base BaseProofs GtlvModel DecEncModel MemModel MemSpec GenModel GenSpec GenProofs.
Local Open Scope string_scope.
Local Open Scope N_scope.
Local Open Scope list_scope.

Section Tags.
Variable cfg : gcfg.
Variable ms : list gmsg.
Hypothesis Hshort : names_short cfg ms.

(* one entry per name *)
Definition one_each (s : seenl) : Prop := forall n d e, In (n, d) s -> In (n, e) s -> d = e.
Definition noted (s : seenl) (j : gie) : Prop := gn j <> None -> In (tag_of j, Some (g_id (gd j))) s.
Lemma noted_incl s s' j : incl s s' -> noted s j -> noted s' j.
Proof. intros HI H Hn. apply HI, H, Hn. Qed.
Definition step_ok (occ : list gie) (s s' : seenl) : Prop := incl s s' /\ one_each s' /\ forall j, In j occ -> noted s' j.
Lemma seen_step str d s r : (String.length str <= 255)%nat -> one_each s -> seen str (Some d) s = Some r ->
  incl s (snd r) /\ one_each (snd r) /\ In (str, Some d) (snd r).
Proof.
  intros HL HO H. destruct (seen_find _ _ _ _ H) as [(_ & -> & e & He & Hd)|(_ & -> & Hn)].
  - split; [apply incl_refl|]. split; [exact HO|]. destruct e as [e|]; [|discriminate]. cbn in Hd. apply N.eqb_eq in Hd. subst e. exact He.
  - rewrite trunc_id by exact HL. split; [apply incl_tl, incl_refl|]. split; [|left; reflexivity].
    intros n a b [E1|E1] [E2|E2]; [congruence| | |eauto].
    + injection E1 as <- <-. apply Hn in E2. destruct E2.
    + injection E2 as <- <-. apply Hn in E1. destruct E1.
Qed.
Lemma walk_step f l : (forall i, In i l -> forall s a, one_each s -> f i s = Some a -> step_ok (occs i) s (snd a)) ->
  forall s (a : list citem * seenl), one_each s -> walk f l s = Some a -> step_ok (flat_map occs l) s (snd a).
Proof.
  induction l as [|i l IH]; intros Hf s a HO H; cbn [walk] in H; [injection H as <-; split; [apply incl_refl|split; [exact HO|easy]]|].
  ob H b Hb. ob H c Hc. injection H as <-. cbn [snd flat_map].
  destruct (Hf i (or_introl eq_refl) s b HO Hb) as (I1 & O1 & N1).
  destruct (IH (fun j Hj => Hf j (or_intror Hj)) (snd b) c O1 Hc) as (I2 & O2 & N2).
  split; [eapply incl_tran; eassumption|]. split; [exact O2|]. intros j Hj. apply in_app_or in Hj as [Hj|Hj]; [|auto]. eapply noted_incl; [exact I2|auto].
Qed.
Lemma nested_step i : (forall j, In j (occs i) -> In j (all_ies ms)) -> forall s a, one_each s -> nested_tables cfg i s = Some a -> step_ok (occs i) s (snd a).
Proof.
  induction i as [m d|m d ies IH] using gie_ind'; intros HA s a HO H; cbn [nested_tables] in H.
  - injection H as <-. split; [apply incl_refl|]. split; [exact HO|]. intros j [<-|[]] Hn. destruct (Hn eq_refl).
  - ob H b Hb. ob H c Hc. injection H as <-. cbn [snd].
    assert (W : step_ok (flat_map occs ies) s (snd b)).
    { apply (walk_step (nested_tables cfg) ies); [|exact HO|exact Hb]. intros i Hi s0 a0 HO0 H0. rewrite Forall_forall in IH. apply (IH i Hi); [|exact HO0|exact H0].
      intros j Hj. apply HA. cbn [occs]. right. apply in_flat_map. exists i. auto. }
    destruct W as (I1 & O1 & N1). set (i := GIe m d (Some ies)) in *.
    destruct (Hshort i (HA i (occs_self i))) as [_ HS]; [discriminate|].
    destruct (seen_step _ _ _ _ HS O1 Hc) as (I2 & O2 & N2). split; [eapply incl_tran; eassumption|]. split; [exact O2|].
    intros j Hj. change (occs i) with (i :: flat_map occs ies) in Hj. destruct Hj as [<-|Hj]; [intros _; exact N2|]. eapply noted_incl; [exact I2|auto].
Qed.
Lemma msgs_step l : incl l ms -> forall s a, one_each s -> walk_msgs (nested_tables cfg) l s = Some a ->
  step_ok (all_ies l) s (snd a).
Proof.
  induction l as [|m l IH]; intros HI s a HO H; cbn [walk_msgs] in H; [injection H as <-; split; [apply incl_refl|split; [exact HO|easy]]|].
  ob H b Hb. ob H c Hc. injection H as <-. cbn [snd].
  assert (W : step_ok (flat_map occs (snd m)) s (snd b)).
  { apply (walk_step (nested_tables cfg) (snd m)); [|exact HO|exact Hb]. intros i Hi s0 a0 HO0 H0. apply nested_step; [|exact HO0|exact H0].
    intros j Hj. apply in_flat_map. exists m. split; [apply HI; left; reflexivity|]. apply in_flat_map. exists i. auto. }
  destruct W as (I1 & O1 & N1). destruct (IH (fun x Hx => HI x (or_intror Hx)) (snd b) c O1 Hc) as (I2 & O2 & N2).
  split; [eapply incl_tran; eassumption|]. split; [exact O2|]. intros j Hj. unfold all_ies in Hj. cbn [flat_map] in Hj.
  apply in_app_or in Hj as [Hj|Hj]; [eapply noted_incl; [exact I2|auto]|auto].
Qed.
Lemma tags_checked cs : gen_c cfg ms = Some cs ->
  forall i j, In i (all_ies ms) -> In j (all_ies ms) -> gn i <> None -> gn j <> None -> tag_of i = tag_of j -> g_id (gd i) = g_id (gd j).
Proof.
  intros H i j Hi Hj Ni Nj E. unfold gen_c in H. ob H a Ha. ob H b Hb. destruct (msgs_step ms (incl_refl ms) [] b) as (_ & O & N); [easy|exact Hb|].
  pose proof (N i Hi Ni) as P. pose proof (N j Hj Nj) as Q. rewrite E in P. specialize (O _ _ _ P Q). congruence.
Qed.
End Tags.

Lemma cc_hitem_fresh te t ms te' : cc_hitem te (HStruct t ms) = Some te' -> te t = None /\ te' t <> None /\ forall T, te T <> None -> te' T <> None.
Proof.
  unfold cc_hitem. intros H. destruct (te t) eqn:E; [discriminate|]. ob H ty Hty. injection H as <-. split; [reflexivity|]. split; [rewrite bindty_same; discriminate|].
  intros T HT. unfold bindty. destruct (String.eqb t T); [discriminate|exact HT].
Qed.
Lemma string_app_inj (p a b : string) : (p ++ a)%string = (p ++ b)%string -> a = b.
Proof. induction p as [|c p IH]; [easy|]. cbn. intros H. injection H as H. auto. Qed.
Lemma msg_structs_distinct cfg l : forall te te', cc_h te (map (fun m : gmsg => HStruct (msg_struct cfg (fst m)) (members cfg (snd m))) l) = Some te' ->
  NoDup (map fst l) /\ Forall (fun m => te (msg_struct cfg (fst m)) = None) l.
Proof.
  induction l as [|m l IH]; intros te te' H; [split; constructor|]. cbn [map cc_h] in H. ob H te1 H1. destruct (cc_hitem_fresh _ _ _ _ H1) as (F1 & F2 & F3).
  destruct (IH _ _ H) as (N1 & N2). split.
  - cbn [map]. constructor; [|exact N1]. intros Hin. apply in_map_iff in Hin as (x & E & Hx). rewrite Forall_forall in N2. apply N2 in Hx.
    unfold msg_struct in Hx. rewrite E in Hx. apply F2. exact Hx.
  - constructor; [exact F1|]. rewrite Forall_forall in *. intros x Hx. specialize (N2 x Hx). cbn beta in N2. destruct (te (msg_struct cfg (fst x))) eqn:E; [|reflexivity].
    exfalso. apply (F3 (msg_struct cfg (fst x))); [rewrite E; discriminate|exact N2].
Qed.
Lemma messages_distinct cfg te0 ms hs te : gen_h cfg ms = Some hs -> cc_h te0 hs = Some te -> NoDup (map fst ms).
Proof.
  intros H Hc. unfold gen_h in H. ob H a Ha. injection H as <-. rewrite cc_h_app in Hc. ob Hc te1 H1. unfold msg_items in Hc. rewrite cc_h_app in Hc. ob Hc te2 H2.
  exact (proj1 (msg_structs_distinct cfg ms te1 te2 H2)).
Qed.
(* the members of every generated struct have distinct names, counts and presence flags included *)
Lemma members_distinct cfg ms te0 hs te : types_consistent cfg ms -> names_short cfg ms -> aligns te0 -> gen_h cfg ms = Some hs -> cc_h te0 hs = Some te ->
  (forall i ies, In i (all_ies ms) -> gn i = Some ies -> NoDup (map mb_name (members cfg ies))) /\ Forall (fun m => NoDup (map mb_name (members cfg (snd m)))) ms.
Proof.
  intros HC HS HA H Hc. destruct (header_ok cfg ms HC HS te0 hs te HA H Hc) as (_ & A1 & S1 & M1 & _). split.
  - intros i ies Hi E. destruct (S1 i Hi ies E) as (ty & _ & T). apply (struct_spec te _ ty A1 T).
  - revert M1. apply Forall_impl. intros m (ty & _ & T). apply (struct_spec te _ ty A1 T).
Qed.
