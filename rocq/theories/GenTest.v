(* GenTest.v -- small definitions for the generator: definitions that are fine, and definitions that are wrong but accepted *)
From Coq Require Import String Ascii.
From Verif Require Import Base BaseProofs GtlvModel DecEncModel IesModel TablesModel StrModel MemModel MemSpec MemTest GenModel GenSpec GenProofs GenPfcp GenPfcpProofs PfcpMem PfcpMemProofs.
Local Open Scope string_scope.
Local Open Scope N_scope.
Local Open Scope list_scope.

Definition g_cfg : gcfg := mkGCfg "p" "MSGT_" "TAG_" "struct p_ie_" false.
Definition g_ce (s : string) : option N := get s [("TAG_X", 1); ("TAG_Y", 2); ("TAG_A", 3); ("TAG_B", 4); ("MSGT_FOO", 7); ("MSGT_BAR", 9)].
Definition g_lk (be : bool) (f : fns) : mleaf := of_codec (p_codec be K16) (leaf_of K16) None.
Definition g_la (f : fns) : leaf iev := leaf_of K16.
Definition g_x (opt : bool) (mx mand : N) : gie := GIe (mkGMod "x" opt mx mand None) (mkGDef 1 (Some "uint16_t") None (Some "16be")) None.
Definition g_y (opt : bool) (mx mand : N) : gie := GIe (mkGMod "y" opt mx mand None) (mkGDef 2 (Some "uint16_t") None (Some "16be")) None.

(* the same C type for two groups with different members *)
Definition g_a : gie := GIe (mkGMod "a" false 0 0 None) (mkGDef 10 (Some "struct pair") None None) (Some [g_x false 1 0]).
Definition g_b : gie := GIe (mkGMod "b" false 0 0 None) (mkGDef 20 (Some "struct pair") None None) (Some [g_x false 100 0]).
Definition g_same_type : list gmsg := [("foo", [g_a; g_b])].
Definition g_wire : list N := [0; 3; 0; 0; 0; 4; 0; 30; 0; 1; 0; 2; 0; 1; 0; 1; 0; 2; 0; 1; 0; 1; 0; 2; 0; 7; 0; 1; 0; 2; 0; 7; 0; 1; 0; 2; 0; 7].
Definition g_gen (ms : list gmsg) : generated := match gen_and_compile g_cfg p_te0 g_ce ms with Some r => r | None => mkGen (fun _ => None) [] end.

(* message names that differ in case only *)
Definition g_case : list gmsg := [("foo", [g_x false 0 0]); ("Foo", [g_y false 0 0])].
(* the same tag for two groups *)
Definition g_conflict : list gmsg :=
  [("foo", [GIe (mkGMod "a" false 0 0 None) (mkGDef 10 None None None) (Some [g_x false 0 0])]);
   ("bar", [GIe (mkGMod "a" false 0 0 None) (mkGDef 20 (Some "struct other") None None) (Some [g_y false 0 0])])].

(* fine: nested, optional, repeated, a group used twice *)
Definition g_in : gdef := mkGDef 30 None None None.
Definition g_ok : list gmsg :=
  [("foo", [g_x false 0 0; g_y true 0 0; GIe (mkGMod "a" true 0 0 None) g_in (Some [g_x false 3 1; g_y true 0 0])]);
   ("bar", [GIe (mkGMod "a" false 4 1 None) g_in (Some [g_x false 3 1; g_y true 0 0])])].
Lemma g_accepted : gen_and_compile g_cfg p_te0 g_ce g_ok = Some (g_gen g_ok).
Proof. unfold g_gen. destruct (gen_and_compile g_cfg p_te0 g_ce g_ok) eqn:E; [reflexivity|]. exfalso. revert E. vm_compute. discriminate. Qed.
Ltac in_all H := cbn in H; repeat (destruct H as [H|H]; [subst|]); [..|contradiction].
Lemma g_ids : ids_faithful g_ok.
Proof. intros i j Hi Hj E. cbn in Hi, Hj. intuition (subst; try discriminate E; split; reflexivity). Qed.
Lemma g_types : types_consistent g_cfg g_ok.
Proof. intros i j a b Hi Hj Ea Eb _. cbn in Hi, Hj. intuition (subst; try discriminate Ea; try discriminate Eb; injection Ea as <-; injection Eb as <-; reflexivity). Qed.
Lemma g_short : names_short g_cfg g_ok.
Proof. intros i Hi _. cbn in Hi. intuition (subst; vm_compute; repeat constructor). Qed.
Lemma g_nonempty : groups_nonempty g_ok.
Proof. intros i Hi. cbn in Hi. intuition (subst; discriminate). Qed.
Lemma g_base : base_types_ok p_te0.
Proof.
  split; [eexists; split; reflexivity|]. split; [eexists; split; reflexivity|]. intros t ty H. unfold p_te0 in H.
  apply get_some in H. cbn in H. repeat (destruct H as [H|H]; [injection H as <- <-; reflexivity|]). destruct H.
Qed.
Lemma g_leaf be : leaf_types_ok g_cfg g_ok (gr_types (g_gen g_ok)) (g_lk be).
Proof.
  intros i ty Hi En H. cbn in Hi. intuition (subst; try discriminate En; vm_compute in H; injection H as <-; split; reflexivity).
Qed.
Lemma g_named : well_named g_cfg p_te0 g_ce g_ok.
Proof.
  unfold well_named. split; [exact g_short|]. split.
  { intros i Hi _. cbn in Hi. intuition (subst; vm_compute; repeat constructor). }
  split. { intros i j Hi Hj Ni Nj E. cbn in Hi, Hj. intuition (subst; try discriminate E; try reflexivity; try (destruct (Ni eq_refl)); destruct (Nj eq_refl)). }
  split; [exact g_types|].
  split. { intros i ies Hi E. cbn in Hi. intuition (subst; try discriminate E; injection E as <-; apply nodup_b_ok; reflexivity). }
  split. { constructor; [apply nodup_b_ok; reflexivity|constructor; [apply nodup_b_ok; reflexivity|constructor]]. }
  split; [apply nodup_b_ok; reflexivity|].
  split; [vm_compute; discriminate|]. split; [vm_compute; discriminate|].
  split. { intros i Hi E. cbn in Hi. intuition (subst; try discriminate E; vm_compute; discriminate). }
  split. { intros i Hi E. cbn in Hi. repeat (destruct Hi as [<-|Hi]; [first [destruct (E eq_refl)|split; [reflexivity|]; split; [vm_compute; discriminate|]; repeat constructor; vm_compute; discriminate]|]). destruct Hi. }
  split. { repeat constructor; try reflexivity; vm_compute; discriminate. }
  split; [reflexivity|].
  split. { intros i Hi. cbn in Hi. repeat (destruct Hi as [<-|Hi]; [split; [vm_compute; discriminate|intros x Hx; discriminate Hx]|]). destruct Hi. }
  repeat constructor; vm_compute; discriminate.
Qed.
