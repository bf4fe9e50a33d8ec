(* GenTabProofs.v -- the generated coding tables: meaning, placement, layout *)
From Coq Require Import String Ascii Permutation.
From Verif Require Import Base BaseProofs GtlvModel DecEncModel MemModel MemSpec GenModel GenSpec GenProofs.
Local Open Scope string_scope.
Local Open Scope N_scope.

Section Tab.
Variable cfg : gcfg.
Variable ms : list gmsg.
Notation all := (all_ies ms).
Variable ce : string -> option N.
Variable te : tenv.
Context {V : Type}.
Variable la : fns -> leaf V.
Variable lk : fns -> mleaf.
Hypothesis Hal : aligns te.
Hypothesis Hleaf : leaf_types_ok cfg ms te lk.
Hypothesis Hbool : exists b, te "bool" = Some b /\ ty_size b = 1.
Hypothesis Huint : exists u, te "unsigned int" = Some u /\ ty_size u = 4.

Definition fnames (i : gie) : list string :=
  g_name (gm i) :: (if g_opt (gm i) then [flag_name (g_name (gm i))] else []) ++ (if g_multi (gm i) =? 0 then [] else [count_name (g_name (gm i))]).
Lemma fnames_perm ies : Permutation (flat_map fnames ies) (map mb_name (members cfg ies)).
Proof.
  induction ies as [|i ies IH]; [constructor|]. unfold members in *. cbn [flat_map]. rewrite map_app. apply Permutation_app; [|exact IH].
  unfold fnames, ie_members. destruct (g_opt (gm i)), (g_multi (gm i) =? 0); cbn [app map mb_name]; try reflexivity; apply perm_swap.
Qed.

Definition reg (fs : list (string * finfo)) (n : string) : region := match get n fs with Some f => freg f | None => (0, 0) end.
Lemma reg_apart ty n1 n2 : 
  (forall n1 n2 f1 f2, n1 <> n2 -> get n1 (ty_fields ty) = Some f1 -> get n2 (ty_fields ty) = Some f2 -> apart (freg f1) (freg f2)) ->
  get n1 (ty_fields ty) <> None -> get n2 (ty_fields ty) <> None -> n1 <> n2 -> apart (reg (ty_fields ty) n1) (reg (ty_fields ty) n2).
Proof.
  intros H H1 H2 Hne. unfold reg. destruct (get n1 (ty_fields ty)) eqn:E1; [|easy]. destruct (get n2 (ty_fields ty)) eqn:E2; [|easy]. eapply H; eauto.
Qed.

(* ---------------------------------------------------------------- tables *)
Definition layout_in (T : string) (ies : list gie) (ds : list (mcoding fns)) : Prop :=
  forall ty, te T = Some ty -> (forall sz, ty_size ty <= sz -> 0 < sz -> layout_ok lk sz ds) /\ (ies <> [] -> 0 < ty_size ty).
Definition good (T : string) (ies : list gie) (ds : list (mcoding fns)) : Prop :=
  means_list cfg ce la ies = Some (map (erase la) ds) /\ Forall2 (placed cfg te T) ies ds /\ layout_in T ies ds.
(* the tables of nested groups exist *)
Definition has_table (tb : tables) (i : gie) : Prop :=
  forall ies, gn i = Some ies -> exists ds, get (ies_in (tagname i)) tb = Some ds /\ good (dtype cfg i) ies ds.

Lemma placed_go T ies ds : Forall2 (placed cfg te T) ies ds ->
  (fix go (ies : list gie) (ds : list (mcoding fns)) : Prop :=
     match ies, ds with [], [] => True | j :: ies', e :: ds' => placed cfg te T j e /\ go ies' ds' | _, _ => False end) ies ds.
Proof. induction 1; [exact I|]. split; assumption. Qed.

(* a struct with the members of i *)
Lemma holds_in T ty i : te T = Some ty -> Forall (holds_memb te (ty_fields ty)) (ie_members cfg i) ->
  (exists t o, te (dtype cfg i) = Some t
     /\ get (g_name (gm i)) (ty_fields ty) = Some (mkFi o (dtype cfg i) (ty_size t) (if g_multi (gm i) =? 0 then None else Some (g_multi (gm i)))))
  /\ (g_opt (gm i) = true -> exists t o, te "bool" = Some t /\ get (flag_name (g_name (gm i))) (ty_fields ty) = Some (mkFi o "bool" (ty_size t) None))
  /\ (g_multi (gm i) <> 0 -> exists t o, te "unsigned int" = Some t
        /\ get (count_name (g_name (gm i))) (ty_fields ty) = Some (mkFi o "unsigned int" (ty_size t) None)).
Proof.
  intros HT H. unfold ie_members in H. apply Forall_app in H as [H1 H2]. split; [|split].
  - destruct (g_multi (gm i) =? 0); inversion_clear H2 as [|? ? H3 H4]; exact H3.
  - intros E. rewrite E in H1. inversion_clear H1 as [|? ? H3 H4]. exact H3.
  - intros E. destruct (N.eqb_spec (g_multi (gm i)) 0); [contradiction|]. inversion_clear H2 as [|? ? H3 H4]. inversion_clear H4 as [|? ? H5 H6]. exact H5.
Qed.

Lemma entry_ok ex tb T ty i d : In i all -> te T = Some ty -> Forall (holds_memb te (ty_fields ty)) (ie_members cfg i) -> has_table tb i ->
  groups_nonempty ms ->
  cc_entry te ce ex tb (ie_entry cfg T None i) = Some d ->
  means cfg ce la i = Some (erase la d) /\ placed cfg te T i d /\ laid lk d /\ regions lk d = map (reg (ty_fields ty)) (fnames i)
  /\ Forall (fun n => get n (ty_fields ty) <> None) (fnames i) /\ 0 < msize lk d
  /\ match h_multi (mh_h (mhd d)) with Some (mx, _) => msize lk d <= mh_pitch (mhd d) /\ mx <> 0 | None => True end.
Proof.
  intros Hi HT HM HB HNE H. destruct (holds_in T ty i HT HM) as ((t & o & Ht & Hget) & Hfl & Hcn).
  unfold cc_entry in H. cbn [ie_entry ce_tag ce_inst ce_obj ce_sub ce_memb ce_kind ce_multi ce_flag] in H.
  ob H tag Htag. ob H ins Hinst. ob H oo Hoo. unfold offset_of in Hoo. rewrite HT in Hoo. cbn [obind] in Hoo. rewrite Hget in Hoo. cbn [obind] in Hoo. injection Hoo as <-.
  ob H multi Hmulti. ob H flag Hflag. cbn [fst snd fi_ofs fi_elem] in H.
  assert (Hm : (g_multi (gm i) = 0 /\ multi = None) \/ (g_multi (gm i) <> 0 /\ exists co, multi = Some (g_multi (gm i), g_mmand (gm i), co)
              /\ get (count_name (g_name (gm i))) (ty_fields ty) = Some (mkFi co "unsigned int" 4 None))).
  { destruct (N.eqb_spec (g_multi (gm i)) 0) as [E|E]; [left; split; [exact E|congruence]|right]. split; [exact E|].
    ob Hmulti co Hco. injection Hmulti as <-. destruct (Hcn E) as (u & uo & Hu & Hg). destruct Huint as (u' & Hu' & Hs). assert (u' = u) as -> by congruence. rewrite Hs in Hg.
    unfold offset_of in Hco. rewrite HT in Hco. cbn [obind] in Hco. rewrite Hg in Hco. injection Hco as <-. exists uo. auto. }
  assert (Hf : (g_opt (gm i) = false /\ flag = None) \/ (g_opt (gm i) = true /\ exists po, flag = Some po
              /\ get (flag_name (g_name (gm i))) (ty_fields ty) = Some (mkFi po "bool" 1 None))).
  { destruct (g_opt (gm i)) eqn:E; [right|left; split; [reflexivity|congruence]]. split; [reflexivity|].
    ob Hflag po Hpo. injection Hflag as <-. destruct (Hfl eq_refl) as (u & uo & Hu & Hg). destruct Hbool as (u' & Hu' & Hs). assert (u' = u) as -> by congruence. rewrite Hs in Hg.
    unfold offset_of in Hpo. rewrite HT in Hpo. cbn [obind] in Hpo. rewrite Hg in Hpo. injection Hpo as <-. exists uo. auto. }
  set (ti := match ins with None => mkTi tag false 0 | Some v => mkTi tag true v end) in *.
  set (h := mkMHead _ _ _ _ _) in H.
  assert (Hh : means_head cfg ce i = Some (mh_h h)).
  { unfold means_head. change (tag_of i) with (tagname i). rewrite Htag. cbn [obind h mh_h].
    assert (Ei : match g_inst (gm i) with None => Some (mkTi tag false 0) | Some x => v <-? ce x;; Some (mkTi tag true v) end = Some ti).
    { unfold ti. destruct (g_inst (gm i)) as [x|]; [|injection Hinst as <-; reflexivity]. ob Hinst v Hv. injection Hinst as <-. rewrite Hv. reflexivity. }
    rewrite Ei. cbn [obind]. f_equal. f_equal.
    - destruct Hf as [[-> ->]|(-> & po & -> & _)]; reflexivity.
    - destruct Hm as [[E ->]|(E & co & -> & _)]; [rewrite E; reflexivity|]. destruct (N.eqb_spec (g_multi (gm i)) 0); [contradiction|reflexivity]. }
  assert (Hp : placed1 cfg te T i h (match gn i with Some _ => Some (ty_size t) | None => None end)).
  { exists (ty_size t). split; [destruct (gn i); [intros s E; injection E as <-; reflexivity|discriminate]|]. split; [exists ty, t; auto|]. split.
    - intros E. destruct Hm as [[E' _]|(_ & co & Em & Hg)]; [contradiction|]. cbn [h mh_pitch mh_cofs]. rewrite Em. split; [reflexivity|].
      destruct Huint as (u & Hu & Hs). exists ty, u. auto.
    - intros E. destruct Hf as [[E' _]|(_ & po & Ef & Hg)]; [congruence|]. cbn [h mh_pofs]. rewrite Ef. destruct Hbool as (u & Hu & Hs). exists ty, u. auto. }
  assert (Hd : means cfg ce la i = Some (erase la d) /\ placed cfg te T i d /\ laid lk d /\ mhd d = h /\ msize lk d = ty_size t /\ 0 < ty_size t).
  { destruct i as [m g [ies|]]; cbn [gn gm] in *.
    - ob H ds Hds. injection H as <-. destruct (HB ies eq_refl) as (ds' & Hds' & G1 & G2 & G3).
      assert (ds' = ds) as -> by congruence. destruct (G3 t Ht) as [G4 G5].
      assert (Hne : ies <> []) by (intros ->; exact (HNE _ Hi eq_refl)). specialize (G5 Hne). specialize (G4 (ty_size t) (N.le_refl _) G5).
      split; [|split; [|split; [|auto]]].
      + cbn [means]. rewrite Hh. cbn [obind]. unfold means_list in G1. rewrite G1. reflexivity.
      + cbn [placed]. split; [exact Hp|]. apply placed_go. exact G2.
      + destruct G4 as [L1 L2]. cbn [laid]. split; [exact L1|]. clear -L2. induction L2; [exact I|]. split; assumption.
    - destruct (existsb _ ex); [|discriminate]. injection H as <-. destruct (Hleaf _ t Hi eq_refl Ht) as [L1 L2].
      change (fns_of cfg (GIe m g None)) with (funcs_of cfg (GIe m g None)) in *.
      split; [cbn [means]; rewrite Hh; reflexivity|]. split; [split; [exact Hp|reflexivity]|]. cbn [laid mhd msize]. rewrite <- L1. auto. }
  destruct Hd as (D1 & D2 & D3 & D4 & D5 & D6). split; [exact D1|]. split; [exact D2|]. split; [exact D3|].
  rewrite D5. split; [|split; [|split; [exact D6|]]].
  - unfold regions. rewrite D4, D5. unfold fnames. cbn [map].
    assert (E1 : reg (ty_fields ty) (g_name (gm i)) = (mh_ofs h, match h_multi (mh_h h) with Some (mx, _) => mx * mh_pitch h | None => ty_size t end)).
    { unfold reg. rewrite Hget. unfold freg, fi_size. cbn [fi_ofs fi_n fi_elem h mh_ofs mh_h mh_pitch h_multi].
      destruct Hm as [[E ->]|(E & co & -> & _)]; [rewrite E; reflexivity|]. destruct (N.eqb_spec (g_multi (gm i)) 0); [contradiction|reflexivity]. }
    rewrite E1, map_app. apply f_equal2; [reflexivity|]. cbn [h mh_h h_pres h_multi mh_pofs mh_cofs].
    apply f_equal2.
    + destruct Hf as [[-> ->]|(-> & po & -> & Hg)]; [reflexivity|]. cbn [map]. unfold reg. rewrite Hg. reflexivity.
    + destruct Hm as [[E ->]|(E & co & -> & Hg)]; [rewrite E; reflexivity|]. destruct (N.eqb_spec (g_multi (gm i)) 0); [contradiction|].
      cbn [map]. unfold reg. rewrite Hg. reflexivity.
  - unfold fnames. constructor; [rewrite Hget; discriminate|]. apply Forall_app. split.
    + destruct Hf as [[-> _]|(-> & po & _ & Hg)]; constructor; [rewrite Hg; discriminate|constructor].
    + destruct Hm as [[-> _]|(E & co & _ & Hg)]; [constructor|]. destruct (N.eqb_spec (g_multi (gm i)) 0); [contradiction|]. constructor; [rewrite Hg; discriminate|constructor].
  - rewrite D4. cbn [h mh_h h_multi mh_pitch]. destruct Hm as [[_ ->]|(E & co & -> & _)]; [exact I|]. split; [lia|exact E].
Qed.

Lemma nodup_apart ty ns :
  (forall n1 n2 f1 f2, n1 <> n2 -> get n1 (ty_fields ty) = Some f1 -> get n2 (ty_fields ty) = Some f2 -> apart (freg f1) (freg f2)) ->
  Forall (fun n => get n (ty_fields ty) <> None) ns -> NoDup ns -> ForallOrdPairs apart (map (reg (ty_fields ty)) ns).
Proof.
  intros HA HF HN. induction HN as [|n ns Hn HN IH]; [constructor|]. inversion_clear HF as [|? ? H1 H2]. cbn [map]. constructor; [|apply IH; exact H2].
  apply Forall_map. rewrite Forall_forall in H2 |- *. intros x Hx. apply reg_apart; auto. intros ->. contradiction.
Qed.

Lemma entries_ok ex tb T ty ies : closed ms ies -> groups_nonempty ms -> te T = Some ty -> struct_of te (members cfg ies) ty ->
  (forall i, In i ies -> has_table tb i) -> forall ds,
  cc_entries te ce ex tb (map (ie_entry cfg T None) ies) = Some ds -> good T ies ds.
Proof.
  intros HC HNE HT HS HB ds H. destruct (struct_spec te _ ty Hal HS) as (_ & HN & HH & HI & HA).
  apply (Permutation_NoDup (Permutation_sym (fnames_perm ies))) in HN.
  assert (HF : Forall2 (fun i d => means cfg ce la i = Some (erase la d) /\ placed cfg te T i d /\ laid lk d /\ regions lk d = map (reg (ty_fields ty)) (fnames i)
    /\ Forall (fun n => get n (ty_fields ty) <> None) (fnames i) /\ 0 < msize lk d
    /\ match h_multi (mh_h (mhd d)) with Some (mx, _) => msize lk d <= mh_pitch (mhd d) /\ mx <> 0 | None => True end) ies ds).
  { clear HS HN. revert ds H. induction ies as [|i ies IH]; intros ds H.
    - injection H as <-. constructor.
    - cbn [map cc_entries] in H. ob H d Hd. ob H ds' Hds. injection H as <-. apply closed_cons in HC as [HC1 HC2].
      unfold members in HH. cbn [flat_map] in HH. apply Forall_app in HH as [HH1 HH2]. constructor.
      + apply (entry_ok ex tb); auto; [apply HC1, occs_self|apply HB; left; reflexivity].
      + apply IH; auto. intros j Hj. apply HB. right. exact Hj. }
  split; [|split].
  - clear -HF. induction HF as [|i d ies ds H1 H2 IH]; [reflexivity|]. unfold means_list in *. cbn [fold_right map].
    destruct H1 as (E & _). rewrite E. cbn [obind]. rewrite IH. reflexivity.
  - clear -HF. induction HF as [|i d ies ds H1 H2 IH]; constructor; [apply H1|exact IH].
  - intros ty' E. assert (ty' = ty) as -> by congruence. split.
    + intros sz Hsz Hpos. split; [|clear -HF; induction HF as [|i d ies ds H1 H2 IH]; constructor; [apply H1|exact IH]].
      split; [exact Hpos|]. split; [|split; [|split]].
      * clear -HF HI Hsz. induction HF as [|i d ies ds H1 H2 IH]; constructor; [|exact IH]. destruct H1 as (_ & _ & _ & -> & H & _).
        apply Forall_map. rewrite Forall_forall in H |- *. intros n Hn. specialize (H n Hn). unfold reg, inside. destruct (get n (ty_fields ty)) as [f|] eqn:Ef; [|easy].
        apply HI in Ef. unfold freg. cbn [fst snd]. lia.
      * clear -HF HA HN. induction HF as [|i d ies ds H1 H2 IH]; constructor.
        { destruct H1 as (_ & _ & _ & -> & H & _). apply nodup_apart; auto. cbn [flat_map] in HN. clear -HN. induction (fnames i); [constructor|].
          cbn [app] in HN. inversion_clear HN as [|? ? X Y]. constructor; [|auto]. intros Z. apply X, in_or_app. auto. }
        { apply IH. cbn [flat_map] in HN. clear -HN. induction (fnames i); [exact HN|]. cbn [app] in HN. inversion_clear HN. auto. }
      * clear -HF HA HN. induction HF as [|i d ies ds H1 H2 IH]; constructor.
        { destruct H1 as (_ & _ & _ & -> & H & _). cbn [flat_map] in HN.
          assert (HD : forall n n', In n (fnames i) -> In n' (flat_map fnames ies) -> n <> n').
          { clear -HN. intros n n' Hn Hn' <-. induction (fnames i) as [|x l IH]; [exact Hn|]. cbn [app] in HN. inversion_clear HN as [|? ? X Y].
            destruct Hn as [->|Hn]; [apply X, in_or_app; auto|auto]. }
          clear -H H2 HA HD. induction H2 as [|j e ies ds H1 H2 IH]; constructor.
          - destruct H1 as (_ & _ & _ & -> & H' & _). apply Forall_map. rewrite Forall_forall in H |- *. intros n Hn.
            apply Forall_map. rewrite Forall_forall in H' |- *. intros n' Hn'. apply reg_apart; auto. apply HD; [exact Hn|]. cbn [flat_map]. apply in_or_app. auto.
          - apply IH. intros n n' Hn Hn'. apply HD; [exact Hn|]. cbn [flat_map]. apply in_or_app. auto. }
        { apply IH. cbn [flat_map] in HN. clear -HN. induction (fnames i); [exact HN|]. cbn [app] in HN. inversion_clear HN. auto. }
      * clear -HF. induction HF as [|i d ies ds H1 H2 IH]; constructor; [|exact IH]. destruct H1 as (_ & _ & _ & _ & _ & _ & H1).
        destruct (h_multi (mh_h (mhd d))) as [[? ?]|]; [apply H1|exact I].
    + intros Hne. destruct HF as [|i d ies ds H1 H2]; [easy|]. destruct H1 as (_ & _ & _ & Hr & Hq & Hp & Hpi). unfold regions in Hr. unfold fnames in Hr, Hq. cbn [map] in Hr.
      injection Hr as Hr1 Hr2. inversion_clear Hq as [|? ? H3 _]. destruct (get (g_name (gm i)) (ty_fields ty)) as [f|] eqn:Ef; [|easy].
      specialize (HI _ _ Ef). unfold reg in Hr1. rewrite Ef in Hr1. unfold freg in Hr1. injection Hr1 as Ho Hs.
      assert (0 < fi_size f); [|lia]. rewrite <- Hs. destruct (h_multi (mh_h (mhd d))) as [[mx mand]|] eqn:Em; [|exact Hp].
      destruct Hpi as [Hpi Hmx]. nia.
Qed.

(* ---------------------------------------------------------------- the C file *)
Fixpoint cc_run (ex : list fns) (tb : tables) (cs : list citem) : option (list fns * tables) :=
  match cs with
  | [] => Some (ex, tb)
  | CExtern f :: cs' => cc_run (f :: ex) tb cs'
  | CTable t es :: cs' => if has t tb then None else ds <-? cc_entries te ce ex tb es ;; cc_run ex ((t, ds) :: tb) cs'
  | CMsgDefs _ :: _ => None
  end.
Definition no_defs (c : citem) : Prop := match c with CMsgDefs _ => False | _ => True end.
Lemma cc_c_app cs cs' : Forall no_defs cs -> forall ex tb r, cc_c te ce ex tb (cs ++ cs') = Some r ->
  exists st, cc_run ex tb cs = Some st /\ cc_c te ce (fst st) (snd st) cs' = Some r.
Proof.
  induction 1 as [|c cs Hc Hcs IH]; intros ex tb r H; [exists (ex, tb); auto|]. cbn [app] in H. destruct c as [f|t es|l]; [| |destruct Hc]; cbn [cc_c cc_run] in *.
  - apply IH. exact H.
  - destruct (has t tb); [discriminate|]. ob H ds Hds. rewrite Hds. cbn [obind]. apply IH. exact H.
Qed.
Lemma cc_run_app cs cs' : forall ex tb, cc_run ex tb (cs ++ cs') = obind (cc_run ex tb cs) (fun st => cc_run (fst st) (snd st) cs').
Proof.
  induction cs as [|c cs IH]; intros ex tb; [reflexivity|]. cbn [app]. destruct c as [f|t es|l]; cbn [cc_run]; [apply IH| |reflexivity].
  destruct (has t tb); [reflexivity|]. destruct (cc_entries te ce ex tb es); cbn [obind]; [apply IH|reflexivity].
Qed.

Lemma walk_forall {X} (P : X -> Prop) f l : (forall i, In i l -> forall s a, f i s = Some a -> Forall P (fst a)) ->
  forall s a, walk f l s = Some a -> Forall P (fst a).
Proof.
  induction l as [|i l IH]; intros H s a Ha; cbn [walk] in Ha; [injection Ha as <-; constructor|]. ob Ha x Hx. ob Ha y Hy. injection Ha as <-. cbn [fst].
  apply Forall_app. split; [apply (H i (or_introl eq_refl) _ _ Hx)|]. apply (IH (fun j Hj => H j (or_intror Hj)) _ _ Hy).
Qed.
Lemma walk_msgs_forall {X} (P : X -> Prop) f l : (forall i s a, f i s = Some a -> Forall P (fst a)) ->
  forall s a, walk_msgs f l s = Some a -> Forall P (fst a).
Proof.
  intros H. induction l as [|m l IH]; intros s a Ha; cbn [walk_msgs] in Ha; [injection Ha as <-; constructor|]. ob Ha x Hx. ob Ha y Hy. injection Ha as <-. cbn [fst].
  apply Forall_app. split; [apply (walk_forall P f _ (fun i _ => H i) _ _ Hx)|]. apply (IH _ _ Hy).
Qed.
Definition is_extern (c : citem) : Prop := match c with CExtern _ => True | _ => False end.
Lemma externs_only i : forall s a, externs cfg i s = Some a -> Forall is_extern (fst a).
Proof.
  induction i as [m d|m d ies IH] using gie_ind'; intros s a H; cbn [externs] in H.
  - ob H b Hb. injection H as <-. cbn [fst]. destruct (fst b); repeat constructor.
  - revert H. apply walk_forall. rewrite Forall_forall in IH. exact IH.
Qed.
Definition is_table (c : citem) : Prop := match c with CTable _ _ => True | _ => False end.
Lemma tables_only i : forall s a, nested_tables cfg i s = Some a -> Forall is_table (fst a).
Proof.
  induction i as [m d|m d ies IH] using gie_ind'; intros s a H; cbn [nested_tables] in H; [injection H as <-; constructor|].
  ob H x Hx. ob H b Hb. injection H as <-. cbn [fst]. apply Forall_app. split.
  - revert Hx. apply walk_forall. rewrite Forall_forall in IH. exact IH.
  - destruct (fst b); repeat constructor.
Qed.
Lemma run_externs cs : Forall is_extern cs -> forall ex tb, exists ex', cc_run ex tb cs = Some (ex', tb).
Proof. induction 1 as [|c cs Hc Hcs IH]; intros ex tb; [exists ex; reflexivity|]. destruct c; [|destruct Hc|destruct Hc]. cbn [cc_run]. apply IH. Qed.

Hypothesis Hstr : forall j, In j all -> has_struct cfg te j.
Hypothesis Hfaith : ids_faithful ms.
Hypothesis Hne : groups_nonempty ms.
Hypothesis Hshort : names_short cfg ms.

Definition tb_ext (tb tb' : tables) : Prop := forall n ds, get n tb = Some ds -> get n tb' = Some ds.
Lemma tb_ext_refl tb : tb_ext tb tb.
Proof. intros n ds H. exact H. Qed.
Lemma tb_ext_trans a b c : tb_ext a b -> tb_ext b c -> tb_ext a c.
Proof. intros H1 H2 n ds H. auto. Qed.
Lemma tb_ext_cons t ds tb : has t tb = false -> tb_ext tb ((t, ds) :: tb).
Proof.
  intros H n ds' E. rewrite get_cons. destruct (String.eqb_spec t n); [subst|exact E]. assert (has n tb = true) by (apply has_get; congruence). congruence.
Qed.
Lemma has_table_ext tb tb' i : tb_ext tb tb' -> has_table tb i -> has_table tb' i.
Proof. intros HE H ies E. destruct (H ies E) as (ds & H1 & H2). exists ds. auto. Qed.
Definition seen_c (tb : tables) (s : seenl) : Prop :=
  forall n e, In (n, e) s -> exists j ies, In j all /\ gn j = Some ies /\ tagname j = n /\ e = Some (g_id (gd j)) /\ has_table tb j.
Lemma seen_c_ext tb tb' s : tb_ext tb tb' -> seen_c tb s -> seen_c tb' s.
Proof.
  intros HE H n e E. destruct (H n e E) as (j & ies & H1 & H2 & H3 & H4 & H5). exists j, ies. repeat split; auto. apply (has_table_ext tb); assumption.
Qed.
Lemma dtype_eq i j : gd i = gd j -> tagname i = tagname j -> dtype cfg i = dtype cfg j.
Proof. unfold dtype. intros -> ->. reflexivity. Qed.

Lemma nested_ok i : (forall j, In j (occs i) -> In j all) -> forall s out s' ex tb st,
  seen_c tb s -> nested_tables cfg i s = Some (out, s') -> cc_run ex tb out = Some st ->
  fst st = ex /\ tb_ext tb (snd st) /\ seen_c (snd st) s' /\ forall j, In j (occs i) -> has_table (snd st) j.
Proof.
  induction i as [m d|m d ies IH] using gie_ind'; intros HC s out s' ex tb st HS H HT.
  - cbn [nested_tables] in H. injection H as <- <-. cbn [cc_run] in HT. injection HT as <-. cbn [fst snd]. repeat split; auto; [apply tb_ext_refl|].
    intros j [<-|[]] ies E. discriminate.
  - cbn [nested_tables] in H. ob H a Ha. ob H b Hb. injection H as <- <-. rewrite cc_run_app in HT. ob HT st1 Ht1.
    assert (H1 : fst st1 = ex /\ tb_ext tb (snd st1) /\ seen_c (snd st1) (snd a) /\ forall j, In j (flat_map occs ies) -> has_table (snd st1) j).
    { clear Hb b HT. apply closed_nested in HC. revert s a tb st1 HS Ha Ht1. induction IH as [|i l Hi Hl IHl]; intros s a tb st1 HS Ha Ht1.
      - cbn [walk] in Ha. injection Ha as <-. cbn [fst cc_run] in Ht1. injection Ht1 as <-. cbn [fst snd]. repeat split; auto; [apply tb_ext_refl|easy].
      - cbn [walk] in Ha. ob Ha x Hx. ob Ha y Hy. injection Ha as <-. cbn [fst snd] in *. rewrite cc_run_app in Ht1. ob Ht1 st2 Ht2.
        apply closed_cons in HC as [HC1 HC2]. destruct x as [xo xs]. destruct (Hi HC1 s xo xs ex tb st2 HS Hx Ht2) as (X1 & E1 & S1 & O1).
        rewrite X1 in Ht1. destruct (IHl HC2 xs y (snd st2) st1 S1 Hy Ht1) as (X2 & E2 & S2 & O2). split; [exact X2|]. split; [exact (tb_ext_trans _ _ _ E1 E2)|]. split; [exact S2|].
        cbn [flat_map]. intros j Hj. apply in_app_or in Hj as [Hj|Hj]; [apply (has_table_ext (snd st2)); auto|auto]. }
    destruct H1 as (X1 & E1 & S1 & O1). set (i := GIe m d (Some ies)) in *. assert (Hi : In i all) by (apply HC, occs_self).
    destruct (seen_find _ _ _ _ Hb) as [(Eb1 & Eb2 & e & He & Hd)|(Eb1 & Eb2 & _)]; rewrite Eb1 in HT; rewrite Eb2; cbn [cc_run] in HT.
    + injection HT as <-. cbn [fst snd]. repeat split; auto. intros j Hj. change (occs i) with (i :: flat_map occs ies)%list in Hj. destruct Hj as [<-|Hj]; [|auto].
      intros ies' E. injection E as <-. destruct (S1 _ _ He) as (j & jes & J1 & J2 & J3 & J4 & J5). subst e. cbn [deq] in Hd. apply N.eqb_eq in Hd.
      destruct (Hfaith i j Hi J1 Hd) as [F1 F2]. change (gn i) with (Some ies) in F2. destruct (J5 ies (eq_sym F2)) as (ds & D1 & D2).
      exists ds. rewrite <- J3. split; [exact D1|]. rewrite (dtype_eq i j F1 (eq_sym J3)). exact D2.
    + destruct (has (ies_in (tagname i)) (snd st1)) eqn:Eh; [discriminate|]. ob HT ds Hds. injection HT as <-. cbn [fst snd].
      pose proof (tb_ext_cons (ies_in (tagname i)) ds (snd st1) Eh) as E2.
      assert (Hself : has_table ((ies_in (tagname i), ds) :: snd st1) i).
      { intros ies' E. injection E as <-. exists ds. rewrite get_cons, String.eqb_refl. split; [reflexivity|].
        destruct (Hstr i Hi ies eq_refl) as (ty & T1 & T2). apply (entries_ok (fst st1) (snd st1) _ ty); auto.
        - apply (closed_nested ms m d). exact HC.
        - intros j Hj. apply O1. apply in_flat_map. exists j. split; [exact Hj|apply occs_self]. }
      split; [exact X1|]. split; [exact (tb_ext_trans _ _ _ E1 E2)|]. split.
      * intros n e [E|Hin].
        { injection E as <- <-. exists i, ies. repeat split; auto. symmetry. apply trunc_id. apply (Hshort i Hi). discriminate. }
        { apply (seen_c_ext (snd st1) _ _ E2 S1 _ _ Hin). }
      * intros j Hj. change (occs i) with (i :: flat_map occs ies)%list in Hj. destruct Hj as [<-|Hj]; [exact Hself|]. apply (has_table_ext (snd st1)); auto.
Qed.
Lemma walk_nested_ok l : closed ms l -> forall s a ex tb st, seen_c tb s -> walk (nested_tables cfg) l s = Some a -> cc_run ex tb (fst a) = Some st ->
  fst st = ex /\ tb_ext tb (snd st) /\ seen_c (snd st) (snd a) /\ forall j, In j (flat_map occs l) -> has_table (snd st) j.
Proof.
  induction l as [|i l IHl]; intros HC s a ex tb st HS Ha Ht1.
  - cbn [walk] in Ha. injection Ha as <-. cbn [fst cc_run] in Ht1. injection Ht1 as <-. cbn [fst snd]. repeat split; auto; [apply tb_ext_refl|easy].
  - cbn [walk] in Ha. ob Ha x Hx. ob Ha y Hy. injection Ha as <-. cbn [fst snd] in *. rewrite cc_run_app in Ht1. ob Ht1 st2 Ht2.
    apply closed_cons in HC as [HC1 HC2]. destruct x as [xo xs]. destruct (nested_ok i HC1 s xo xs ex tb st2 HS Hx Ht2) as (X1 & E1 & S1 & O1).
    rewrite X1 in Ht1. destruct (IHl HC2 xs y ex (snd st2) st S1 Hy Ht1) as (X2 & E2 & S2 & O2). split; [exact X2|]. split; [exact (tb_ext_trans _ _ _ E1 E2)|]. split; [exact S2|].
    cbn [flat_map]. intros j Hj. apply in_app_or in Hj as [Hj|Hj]; [apply (has_table_ext (snd st2)); auto|auto].
Qed.
Lemma msgs_nested_ok l : Forall (fun m => closed ms (snd m)) l -> forall s a ex tb st, seen_c tb s -> walk_msgs (nested_tables cfg) l s = Some a ->
  cc_run ex tb (fst a) = Some st ->
  fst st = ex /\ tb_ext tb (snd st) /\ forall j, In j (flat_map (fun m => flat_map occs (snd m)) l) -> has_table (snd st) j.
Proof.
  induction l as [|m l IHl]; intros HC s a ex tb st HS Ha Ht1.
  - cbn [walk_msgs] in Ha. injection Ha as <-. cbn [fst cc_run] in Ht1. injection Ht1 as <-. cbn [fst snd]. repeat split; auto; [apply tb_ext_refl|easy].
  - cbn [walk_msgs] in Ha. ob Ha x Hx. ob Ha y Hy. injection Ha as <-. cbn [fst snd] in *. rewrite cc_run_app in Ht1. ob Ht1 st2 Ht2.
    inversion_clear HC as [|? ? HC1 HC2]. destruct (walk_nested_ok _ HC1 s x ex tb st2 HS Hx Ht2) as (X1 & E1 & S1 & O1).
    rewrite X1 in Ht1. destruct (IHl HC2 (snd x) y ex (snd st2) st S1 Hy Ht1) as (X2 & E2 & O2). split; [exact X2|]. split; [exact (tb_ext_trans _ _ _ E1 E2)|].
    cbn [flat_map]. intros j Hj. apply in_app_or in Hj as [Hj|Hj]; [apply (has_table_ext (snd st2)); auto|auto].
Qed.

(* the tables of the messages *)
Variable u : tyinfo.
Hypothesis Hu : te (msg_union cfg) = Some u.
Hypothesis Hum : Forall (union_has cfg te u) ms.
Hypothesis Hmsg : Forall (msg_has cfg te) ms.
Lemma offset_union m memb : In m ms -> offset_of te (msg_union cfg) (Some (fst m)) memb = offset_of te (msg_struct cfg (fst m)) None memb.
Proof.
  intros Hm. rewrite Forall_forall in Hum. destruct (Hum m Hm) as (t & T1 & T2 & _). unfold offset_of. rewrite Hu, T1. cbn [obind]. rewrite T2. cbn [obind fi_type].
  rewrite T1. reflexivity.
Qed.
Lemma entries_union m ex tb ies : In m ms ->
  cc_entries te ce ex tb (map (ie_entry cfg (msg_union cfg) (Some (fst m))) ies) = cc_entries te ce ex tb (map (ie_entry cfg (msg_struct cfg (fst m)) None) ies).
Proof.
  intros Hm. induction ies as [|i ies IH]; [reflexivity|]. cbn [map cc_entries]. rewrite IH.
  assert (E : cc_entry te ce ex tb (ie_entry cfg (msg_union cfg) (Some (fst m)) i) = cc_entry te ce ex tb (ie_entry cfg (msg_struct cfg (fst m)) None i)).
  { unfold cc_entry. cbn [ie_entry ce_tag ce_inst ce_obj ce_sub ce_memb ce_kind ce_multi ce_flag]. rewrite (offset_union m _ Hm).
    destruct (g_multi (gm i) =? 0), (g_opt (gm i)); rewrite ?(offset_union m _ Hm); reflexivity. }
  rewrite E. reflexivity.
Qed.
Lemma msg_tables_ok l : incl l ms -> forall ex tb st, (forall j, In j all -> has_table tb j) -> cc_run ex tb (map (msg_table_item cfg) l) = Some st ->
  tb_ext tb (snd st) /\ Forall (fun m => exists ds, get (ies_in_msg (fst m)) (snd st) = Some ds /\ good (msg_struct cfg (fst m)) (snd m) ds) l.
Proof.
  induction l as [|m l IH]; intros HI ex tb st HB H.
  - injection H as <-. split; [apply tb_ext_refl|constructor].
  - cbn [map cc_run msg_table_item] in H. destruct (has (ies_in_msg (fst m)) tb) eqn:Eh; [discriminate|]. ob H ds Hds.
    assert (Hm : In m ms) by (apply HI; left; reflexivity). pose proof (tb_ext_cons (ies_in_msg (fst m)) ds tb Eh) as E1.
    assert (HI' : incl l ms) by (intros x Hx; apply HI; right; exact Hx).
    destruct (IH HI' ex _ st (fun j Hj => has_table_ext _ _ j E1 (HB j Hj)) H) as [E2 O2]. split; [exact (tb_ext_trans _ _ _ E1 E2)|]. constructor; [|exact O2].
    exists ds. split; [apply E2; rewrite get_cons, String.eqb_refl; reflexivity|]. rewrite (entries_union m _ _ _ Hm) in Hds.
    rewrite Forall_forall in Hmsg. destruct (Hmsg m Hm) as (ty & T1 & T2).
    pose proof (closed_all ms) as HC. rewrite Forall_forall in HC. apply (entries_ok ex tb _ ty _ (HC m Hm) Hne T1 T2); [|exact Hds].
    intros j Hj. apply HB, (HC m Hm). apply in_flat_map. exists j. split; [exact Hj|apply occs_self].
Qed.
Lemma cfile_ok cs defs : gen_c cfg ms = Some cs -> cc_c te ce [] [] cs = Some defs ->
  Forall2 (fun m d => ce (gc_msgt cfg ++ toupper (fst m)) = Some (fst d) /\ good (msg_struct cfg (fst m)) (snd m) (snd d)) ms defs.
Proof.
  intros H HT. unfold gen_c in H. ob H a Ha. ob H b Hb. injection H as <-.
  pose proof (walk_msgs_forall is_extern _ _ externs_only _ _ Ha) as F1. pose proof (walk_msgs_forall is_table _ _ tables_only _ _ Hb) as F2.
  apply cc_c_app in HT; [|revert F1; apply Forall_impl; intros []; easy]. destruct HT as (st1 & R1 & HT).
  destruct (run_externs _ F1 [] []) as (ex1 & R1'). rewrite R1' in R1. injection R1 as <-. cbn [fst snd] in HT.
  apply cc_c_app in HT; [|revert F2; apply Forall_impl; intros []; easy]. destruct HT as (st2 & R2 & HT).
  destruct (msgs_nested_ok ms (closed_all ms) [] b ex1 [] st2 (fun T d (Hf : In (T, d) []) => match Hf with end) Hb R2) as (_ & _ & O2).
  apply cc_c_app in HT; [|apply Forall_map, Forall_forall; intros; exact I]. destruct HT as (st3 & R3 & HT).
  destruct (msg_tables_ok ms (incl_refl ms) (fst st2) (snd st2) st3 O2 R3) as [_ O3]. cbn [cc_c msg_defs_item] in HT.
  clear -O3 HT. revert defs HT. induction O3 as [|m l Hm Hl IH]; intros defs HT; [injection HT as <-; constructor|].
  cbn [map cc_defs] in HT. ob HT t Ht. ob HT ds Hds. ob HT r Hr. injection HT as <-. constructor; [|apply IH; exact Hr]. cbn [fst snd]. split; [exact Ht|].
  destruct Hm as (ds' & D1 & D2). assert (ds' = ds) as -> by congruence. exact D2.
Qed.
End Tab.

(* ---------------------------------------------------------------- msg_defs[] *)
Lemma defs_size_in defs d : In d defs -> fst d < defs_size defs.
Proof. unfold defs_size. induction defs as [|x defs IH]; [easy|]. cbn [fold_right]. intros [->|H]; [lia|]. specialize (IH H). lia. Qed.
Lemma find_app {A} (f : A -> bool) a b : find f (a ++ b) = match find f a with Some x => Some x | None => find f b end.
Proof. induction a as [|x a IH]; [reflexivity|]. cbn [app find]. destruct (f x); [reflexivity|exact IH]. Qed.
Lemma defs_get_last pre t ds post : Forall (fun d => fst d <> t) post -> defs_get (pre ++ (t, ds) :: post) t = Some ds.
Proof.
  intros H. unfold defs_get. assert (HL : t < defs_size (pre ++ (t, ds) :: post)) by (apply (defs_size_in _ (t, ds)), in_or_app; right; left; reflexivity).
  destruct (N.leb_spec (defs_size (pre ++ (t, ds) :: post)) t); [lia|]. rewrite rev_app_distr. cbn [rev]. rewrite <- app_assoc, find_app.
  assert (E : find (fun d : N * list (mcoding fns) => fst d =? t) (rev post) = None).
  { destruct (find _ (rev post)) eqn:E; [|reflexivity]. apply find_some in E as [E1 E2]. apply in_rev in E1. rewrite Forall_forall in H. apply H in E1. apply N.eqb_eq in E2. contradiction. }
  rewrite E. cbn [app find fst]. rewrite N.eqb_refl. reflexivity.
Qed.
Lemma defs_get_none defs t : Forall (fun d => fst d <> t) defs -> defs_get defs t = None.
Proof.
  intros H. unfold defs_get. destruct (defs_size defs <=? t); [reflexivity|]. destruct (find _ (rev defs)) eqn:E; [|reflexivity].
  apply find_some in E as [E1 E2]. apply in_rev in E1. rewrite Forall_forall in H. apply H in E1. apply N.eqb_eq in E2. contradiction.
Qed.

(* ---------------------------------------------------------------- the whole *)
Lemma gen_correct {V} cfg te0 ce (la : fns -> leaf V) lk ms r :
  gen_and_compile cfg te0 ce ms = Some r ->
  ids_faithful ms -> types_consistent cfg ms -> names_short cfg ms -> groups_nonempty ms -> base_types_ok te0 -> leaf_types_ok cfg ms (gr_types r) lk ->
  ext te0 (gr_types r)
  /\ exists u, gr_types r (msg_union cfg) = Some u
  /\ Forall2 (fun m d => ce (gc_msgt cfg ++ toupper (fst m)) = Some (fst d)
       /\ means_list cfg ce la (snd m) = Some (map (erase la) (snd d))
       /\ Forall2 (placed cfg (gr_types r) (msg_struct cfg (fst m))) (snd m) (snd d)
       /\ (0 < ty_size u -> layout_ok lk (ty_size u) (snd d))
       /\ (snd m <> [] -> 0 < ty_size u)) ms (gr_defs r).
Proof.
  intros H HF HC HS HN (HB & HU & HA) HL. unfold gen_and_compile in H. ob H hs Hh. ob H cs Hc. ob H te Ht. ob H defs Hd. injection H as <-. cbn [gr_types gr_defs] in *.
  destruct (header_ok cfg ms HC HS te0 hs te HA Hh Ht) as (E1 & A1 & S1 & M1 & u & U1 & U2). split; [exact E1|]. exists u. split; [exact U1|].
  assert (HB' : exists b, te "bool" = Some b /\ ty_size b = 1) by (destruct HB as (b & B1 & B2); exists b; auto).
  assert (HU' : exists b, te "unsigned int" = Some b /\ ty_size b = 4) by (destruct HU as (b & B1 & B2); exists b; auto).
  pose proof (cfile_ok cfg ms ce te la lk A1 HL HB' HU' S1 HF HN HS u U1 U2 M1 cs defs Hc Hd) as G.
  rewrite Forall_forall in U2. assert (HI : incl ms ms) by apply incl_refl. clear -G U2 HI.
  set (l := ms) in G at 1. change (incl l ms) in HI. fold l. clearbody l.
  induction G as [|m d l defs H1 H2 IH]; constructor; [|apply IH; intros x Hx; apply HI; right; exact Hx].
  destruct H1 as (G1 & G2 & G3 & G4). destruct (U2 m (HI m (or_introl eq_refl))) as (t & T1 & _ & T3). destruct (G4 t T1) as [L1 L2].
  split; [exact G1|]. split; [exact G2|]. split; [exact G3|]. split; [intros Hpos; apply L1; assumption|]. intros Hne. specialize (L2 Hne). lia.
Qed.
