(* GenFinal.v -- the generated functions on memory, for any definitions *)
From Coq Require Import String Ascii.
From Verif Require Import Base BaseProofs GtlvModel DecEncModel DecEncSpec StrModel MemModel MemSpec MemProofs MemEncProofs GenModel GenSpec GenProofs GenTabProofs.
Local Open Scope string_scope.
Local Open Scope N_scope.
Local Open Scope list_scope.

Definition msgt_of (cfg : gcfg) (ce : string -> option N) (m : gmsg) : option N := ce (gc_msgt cfg ++ toupper (fst m))%string.

Lemma forall2_app_inv {A B} (R : A -> B -> Prop) l1 l2 l : Forall2 R (l1 ++ l2) l -> exists k1 k2, l = k1 ++ k2 /\ Forall2 R l1 k1 /\ Forall2 R l2 k2.
Proof. intros H. apply Forall2_app_inv_l in H as (a & b & H1 & H2 & ->). exists a, b. auto. Qed.

Section Gen.
Context {V : Type}.
Variable cfg : gcfg.
Variable te0 : tenv.
Variable ce : string -> option N.
Variable la : fns -> leaf V.
Variable lk : fns -> mleaf.
Variable ms : list gmsg.
Variable r : generated.
Hypothesis Hr : gen_and_compile cfg te0 ce ms = Some r.
Hypothesis Hids : ids_faithful ms.
Hypothesis Hcons : types_consistent cfg ms.
Hypothesis Hshort : names_short cfg ms.
Hypothesis Hne : groups_nonempty ms.
Hypothesis Hbase : base_types_ok te0.
Hypothesis Hleaf : leaf_types_ok cfg ms (gr_types r) lk.

Lemma gen_lookup pre m post t : ms = pre ++ m :: post -> msgt_of cfg ce m = Some t -> Forall (fun x => msgt_of cfg ce x <> Some t) post ->
  exists ies, defs_get (gr_defs r) t = Some ies
  /\ means_list cfg ce la (snd m) = Some (map (erase la) ies)
  /\ Forall2 (placed cfg (gr_types r) (msg_struct cfg (fst m))) (snd m) ies
  /\ (0 < gen_union_size cfg r -> layout_ok lk (gen_union_size cfg r) ies)
  /\ (snd m <> [] -> 0 < gen_union_size cfg r).
Proof.
  intros E Ht Hp. destruct (gen_correct cfg te0 ce la lk ms r Hr Hids Hcons Hshort Hne Hbase Hleaf) as (_ & u & U & F). rewrite E in F.
  apply forall2_app_inv in F as (k1 & k2 & Ek & F1 & F2). inversion F2 as [|x y l l' (P1 & P2 & P3 & P4 & P5) F3]; subst. destruct y as [t' ies]. cbn [fst snd] in *.
  unfold msgt_of in Ht. rewrite Ht in P1. injection P1 as <-. exists ies. split.
  { rewrite Ek. apply defs_get_last. clear - F3 Hp. induction F3 as [|x y l l' (Q & _) F3 IH]; [constructor|]. inversion_clear Hp as [|? ? H1 H2]. constructor; [|auto].
    unfold msgt_of in H1. congruence. }
  split; [exact P2|]. split; [exact P3|]. unfold gen_union_size. rewrite U. split; assumption.
Qed.
Lemma gen_lookup_none t : Forall (fun x => msgt_of cfg ce x <> Some t) ms -> defs_get (gr_defs r) t = None.
Proof.
  intros H. apply defs_get_none. destruct (gen_correct cfg te0 ce la lk ms r Hr Hids Hcons Hshort Hne Hbase Hleaf) as (_ & u & _ & F).
  clear - F H. induction F as [|x y l l' (Q & _) F IH]; [constructor|]. inversion_clear H as [|? ? H1 H2]. constructor; [|auto]. unfold msgt_of in H1. congruence.
Qed.

Variable ls : fns -> option (V -> strfn).
Variable ld : fns -> list N -> V.
Variable be : bool.
Notation usz := (gen_union_size cfg r).
Lemma gen_decode_mem pre m post t tab c o bs len dm : ms = pre ++ m :: post -> msgt_of cfg ce m = Some t -> Forall (fun x => msgt_of cfg ce x <> Some t) post ->
  0 < usz -> means_list cfg ce la (snd m) = Some tab ->
  usz < 2 ^ 32 -> (forall k, dec_ok lk la ld k) -> bytes_ok bs -> lenN dm = usz -> Forall (fun b => b = 0) dm ->
  match gtlvs_decode c o (Some tab) bs len with
  | Ok slots => exists dm' ies, gen_ies_decode cfg r lk be c o t bs len dm = (dm', Ok tt) /\ lenN dm' = usz
      /\ defs_get (gr_defs r) t = Some ies /\ Forall2 (placed cfg (gr_types r) (msg_struct cfg (fst m))) (snd m) ies /\ struct_held lk ld be false ies 0 dm' slots
  | Err e => exists dm', gen_ies_decode cfg r lk be c o t bs len dm = (dm', Err e) /\ lenN dm' = usz
  | UB _ => True
  end.
Proof.
  intros E Ht Hp Hn Hm HS HD HB HL HZ. destruct (gen_lookup pre m post t E Ht Hp) as (ies & G1 & G2 & G3 & G4 & _). rewrite Hm in G2. injection G2 as ->.
  unfold gen_ies_decode. rewrite G1.
  pose proof (decode_refines lk la ld be usz HS HD usz ies c o 0 bs len dm HB (G4 Hn) HL (N.le_refl _)) as H.
  assert (Z : exists l, bytes_at 0 usz dm l /\ Forall (fun b => b = 0) l) by (exists dm; split; [exists [], []; rewrite app_nil_r; auto|exact HZ]).
  specialize (H Z). destruct (gtlvs_decode c o (Some (map (erase la) ies)) bs len) as [slots|e|u]; [| |exact I].
  - destruct H as (dm' & E1 & [HL' _] & HS'). exists dm', ies. split; [exact E1|]. split; [congruence|]. split; [first [exact G1|reflexivity]|]. split; assumption.
  - destruct H as (dm' & E1 & [HL' _]). exists dm'. split; [exact E1|congruence].
Qed.
Lemma gen_encode_mem pre m post t tab c cap buf dm slots ies : ms = pre ++ m :: post -> msgt_of cfg ce m = Some t -> Forall (fun x => msgt_of cfg ce x <> Some t) post ->
  0 < usz -> means_list cfg ce la (snd m) = Some tab -> defs_get (gr_defs r) t = Some ies ->
  usz < 2 ^ 32 -> (forall k, enc_ok lk la ld k) -> lenN dm = usz -> struct_held lk ld be true ies 0 dm slots ->
  gen_ies_encode cfg r lk be dm t c cap buf = gtlvs_encode c cap (Some tab) buf slots.
Proof.
  intros E Ht Hp Hn Hm Hi HS HE HL HU. destruct (gen_lookup pre m post t E Ht Hp) as (ies' & G1 & G2 & G3 & G4 & _). rewrite Hm in G2. injection G2 as ->.
  rewrite Hi in G1. injection G1 as <-. unfold gen_ies_encode. rewrite Hi.
  exact (encode_refines lk ld be usz HS dm HL la HE usz ies c cap 0 buf slots (G4 Hn) (N.le_refl _) HU).
Qed.
Lemma gen_print_mem pre m post t names b n dm slots ies : ms = pre ++ m :: post -> msgt_of cfg ce m = Some t -> Forall (fun x => msgt_of cfg ce x <> Some t) post ->
  0 < usz -> defs_get (gr_defs r) t = Some ies ->
  usz < 2 ^ 32 -> (forall k, str_ok lk ls ld k) -> lenN dm = usz -> struct_held lk ld be true ies 0 dm slots ->
  gen_ies_to_str cfg r lk be dm t names b n = gtlvs_to_str ls names (Some (map erase_str ies)) slots b n.
Proof.
  intros E Ht Hp Hn Hi HS HE HL HU. destruct (gen_lookup pre m post t E Ht Hp) as (ies' & G1 & _ & _ & G4 & _).
  rewrite Hi in G1. injection G1 as <-. unfold gen_ies_to_str. rewrite Hi.
  exact (to_str_refines lk ld be usz HS dm HL ls names HE usz ies 0 slots b n (G4 Hn) (N.le_refl _) HU).
Qed.
End Gen.
