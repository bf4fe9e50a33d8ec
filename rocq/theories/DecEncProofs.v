(* DecEncProofs.v -- unordered decoding: refinement to a fold over the parsed items *)
From Verif Require Import Base BaseProofs GtlvModel GtlvSpec GtlvProofs DecEncModel DecEncSpec.

(* ---------------------------------------------------------------- res lemmas *)
Lemma bind_ok {A B} (x : res A) (f : A -> res B) b : bind x f = Ok b -> exists a, x = Ok a /\ f a = Ok b.
Proof. destruct x; cbn; intros H; try discriminate; eauto. Qed.
Lemma is_ub_bind {A B} (x : res A) (f : A -> res B) :
  is_ub x = false -> (forall a, x = Ok a -> is_ub (f a) = false) -> is_ub (bind x f) = false.
Proof. destruct x; cbn; auto. Qed.
Lemma bind_assoc {A B C} (x : res A) (f : A -> res B) (g : B -> res C) :
  bind (bind x f) g = bind x (fun a => bind (f a) g).
Proof. destruct x; reflexivity. Qed.
Lemma bind_ext {A B} (x : res A) (f g : A -> res B) : (forall a, x = Ok a -> f a = g a) -> bind x f = bind x g.
Proof. destruct x; cbn; auto. Qed.

Section Proofs.
Context {V : Type}.
Implicit Types (es : list (entry V)) (slots : list (slot V)) (cd : coding V) (c : cfg) (m d rest : list N).

(* ---------------------------------------------------------------- induction over coding tables *)
Lemma coding_ind' (P : coding V -> Prop) :
  (forall h l, P (CLeaf h l)) ->
  (forall h nc o ies, Forall P ies -> P (CNest h nc o ies)) ->
  forall cd, P cd.
Proof.
  intros HL HN. fix IH 1. intros [h l|h nc o ies]; [apply HL|]. apply HN.
  induction ies as [|d ies IHi]; constructor; [apply IH|exact IHi].
Qed.

Lemma fold_right_and_Forall {A} (P : A -> Prop) l : fold_right (fun x0 acc => P x0 /\ acc) True l <-> Forall P l.
Proof.
  induction l as [|x l IH]; cbn [fold_right]; [split; [constructor|tauto]|].
  rewrite IH. split; [intros [H1 H2]; constructor; assumption|intros H; inversion H; auto].
Qed.

(* ---------------------------------------------------------------- position-free parse *)

(* items up to the first error, and how the parse ends *)
Fixpoint pitems (fuel : nat) c m (left : N) : list item * res unit :=
  match fuel with
  | O => ([], UB OutOfFuel)
  | S f =>
    if left =? 0 then ([], Ok tt) else
    if left <? cfg_min c then ([], Err EBADMSG) else
    match cfg_load c m left with
    | Err e => ([], Err e)
    | UB u => ([], UB u)
    | Ok (ti, len, h) =>
      if left <? h + len then ([], Err EBADMSG) else
      let '(l, st) := pitems f c (dropN (h + len) m) (left - (h + len)) in
      ((ti, takeN len (dropN h m)) :: l, st)
    end
  end.

Fixpoint walk (fuel : nat) c es m (left : N) slots : res (list (slot V)) :=
  match fuel with
  | O => UB OutOfFuel
  | S f =>
    if left =? 0 then Ok slots else
    if left <? cfg_min c then Err EBADMSG else
    match cfg_load c m left with
    | Err e => Err e
    | UB u => UB u
    | Ok (ti, len, h) =>
      if left <? h + len then Err EBADMSG else
      slots' <- place c es 0 0 slots ti (dropN h m) len ;;
      walk f c es (dropN (h + len) m) (left - (h + len)) slots'
    end
  end.

(* load_next in terms of the remaining data *)
Lemma load_next_rem c g :
  ld_pos g <= ld_srclen g ->
  load_next c g =
  let left := ld_srclen g - ld_pos g in
  if left =? 0 then (mkLoad (ld_mem g) (ld_srclen g) (ld_ti g) (ld_len g) None, Ok tt) else
  if left <? cfg_min c then (g, Err EBADMSG) else
  match cfg_load c (dropN (ld_pos g) (ld_mem g)) left with
  | Err e => (mkLoad (ld_mem g) (ld_srclen g) (mkTi 0 false 0) (ld_len g) (ld_val g), Err e)
  | UB u => (g, UB u)
  | Ok (ti, len, h) =>
    (mkLoad (ld_mem g) (ld_srclen g) ti len (Some (ld_pos g + h)),
     if left <? h + len then Err EBADMSG else Ok tt)
  end.
Proof.
  intros H. unfold load_next, next_tl_valid.
  change (match ld_val g with None => 0 | Some v => v + ld_len g end) with (ld_pos g). cbv zeta.
  destruct (N.ltb_spec (ld_srclen g) (ld_pos g)); [lia|].
  destruct (N.ltb_spec (ld_srclen g) (ld_srclen g - ld_pos g)); [lia|].
  destruct (ld_srclen g - ld_pos g =? 0) eqn:E0; cbn [negb andb]; [rewrite E0; reflexivity|].
  rewrite orb_false_r. destruct (ld_srclen g - ld_pos g <? cfg_min c) eqn:E1; [reflexivity|].
  rewrite E0. destruct (cfg_load c _ _) as [[[ti len] h]|e|u]; try reflexivity.
  destruct (N.ltb_spec (ld_srclen g) (ld_pos g + h + len)), (N.ltb_spec (ld_srclen g - ld_pos g) (h + len)); try lia; reflexivity.
Qed.

Lemma unord_loop_walk c es fuel : forall g slots,
  ld_pos g <= ld_srclen g ->
  unord_loop fuel c es g slots = walk fuel c es (dropN (ld_pos g) (ld_mem g)) (ld_srclen g - ld_pos g) slots.
Proof.
  induction fuel as [|f IH]; intros g slots Hp; cbn [unord_loop walk]; [reflexivity|].
  rewrite load_next_rem by exact Hp. cbv zeta.
  destruct (_ =? 0) eqn:E0; [reflexivity|]. destruct (_ <? cfg_min c) eqn:E1; [reflexivity|].
  destruct (cfg_load c _ _) as [[[ti len] h]|e|u] eqn:El; try reflexivity.
  destruct (_ <? h + len) eqn:E2; [reflexivity|]. cbn [ld_val ld_ti ld_mem ld_len].
  rewrite dropN_dropN. apply bind_ext. intros slots' _. rewrite IH; unfold ld_pos at 1; cbn [ld_val ld_len ld_srclen ld_mem].
  - unfold ld_pos at 2. cbn [ld_val ld_len]. rewrite dropN_dropN. f_equal; [f_equal|]; lia.
  - lia.
Qed.

(* what one TLV does, on value bytes; [r0] is the memory behind the value *)
Definition place_item c es (r0 : list N) slots (it : item) : res (list (slot V)) :=
  place c es 0 0 slots (fst it) (snd it ++ r0) (lenN (snd it)).
Fixpoint fold_place c es (r0 : list N) slots (items : list item) : res (list (slot V)) :=
  match items with
  | [] => Ok slots
  | it :: items' => s <- place_item c es r0 slots it ;; fold_place c es r0 s items'
  end.

Definition entry_local (Tail : list N -> Prop) c (o : bool) (e : entry V) : Prop :=
  forall v rest rest', Tail rest -> Tail rest' -> e_dec e c o (v ++ rest) (lenN v) = e_dec e c o (v ++ rest') (lenN v).
Definition entry_safe (Tail : list N -> Prop) c (o : bool) (e : entry V) : Prop :=
  forall v rest, Tail rest -> is_ub (e_dec e c o (v ++ rest) (lenN v)) = false.

Lemma place_local Tail c es ti v rest rest' : Forall (entry_local Tail c false) es -> Tail rest -> Tail rest' ->
  forall idx al slots, place c es idx al slots ti (v ++ rest) (lenN v) = place c es idx al slots ti (v ++ rest') (lenN v).
Proof.
  intros H Hr Hr'. induction H as [|e es He H IH]; intros idx al slots; cbn [place]; [reflexivity|].
  destruct slots as [|s slots]; [reflexivity|].
  destruct (negb _); [rewrite IH; reflexivity|].
  destruct (_ || _); [rewrite IH; reflexivity|].
  destruct (_ && (seen_max <=? idx)); [reflexivity|].
  destruct (_ && nonempty s); [rewrite IH; reflexivity|].
  rewrite (He v rest rest' Hr Hr'). reflexivity.
Qed.

Lemma place_safe Tail c es ti v rest : Forall (entry_safe Tail c false) es -> Tail rest ->
  forall idx al slots, is_ub (place c es idx al slots ti (v ++ rest) (lenN v)) = false.
Proof.
  intros H Hr. induction H as [|e es He H IH]; intros idx al slots; cbn [place].
  { destruct (al =? 0); reflexivity. }
  destruct slots as [|s slots]; [destruct (al =? 0); reflexivity|].
  destruct (negb _); [apply is_ub_bind; auto|].
  destruct (_ || _); [apply is_ub_bind; auto|].
  destruct (_ && (seen_max <=? idx)); [reflexivity|].
  destruct (_ && nonempty s); [apply is_ub_bind; auto|].
  apply is_ub_bind; [apply He, Hr|]. intros a _. destruct (seen_max <=? idx); reflexivity.
Qed.

Lemma split_left d rest left : left <= lenN d -> exists a b, d = a ++ b /\ lenN a = left /\ dropN left (d ++ rest) = b ++ rest.
Proof.
  intros H. exists (takeN left d), (dropN left d). rewrite takeN_dropN, lenN_takeN by exact H.
  repeat split. apply dropN_app_le, H.
Qed.

(* refinement of the loop: [d] is the source data, [rest] the memory behind it *)
Lemma walk_pitems Tail c es r0 :
  cfg_ok c -> tail_closed Tail -> Tail r0 -> Forall (entry_local Tail c false) es ->
  forall fuel d rest slots, Tail rest ->
  walk fuel c es (d ++ rest) (lenN d) slots =
  let '(items, st) := pitems fuel c d (lenN d) in
  s <- fold_place c es r0 slots items ;; _ <- st ;; Ok s.
Proof.
  intros Hok Htc Hr0 Hloc. induction fuel as [|f IH]; intros d rest slots Hrest; cbn [walk pitems]; [reflexivity|].
  destruct (lenN d =? 0) eqn:E0; [reflexivity|]. destruct (lenN d <? cfg_min c) eqn:E1; [reflexivity|].
  rewrite (ok_local c Hok) by lia.
  pose proof (ok_load c Hok d (lenN d) ltac:(lia) ltac:(lia)) as Hld.
  destruct (cfg_load c d (lenN d)) as [[[ti len] h]|e|u]; try reflexivity.
  destruct (lenN d <? h + len) eqn:E2; [reflexivity|].
  assert (D : d = takeN h d ++ takeN len (dropN h d) ++ dropN (h + len) d).
  { rewrite <- (takeN_dropN h d) at 1. f_equal. rewrite <- (takeN_dropN len (dropN h d)) at 1. rewrite dropN_dropN. reflexivity. }
  set (v := takeN len (dropN h d)) in *. set (d2 := dropN (h + len) d) in *.
  assert (Hv : lenN v = len) by (unfold v; apply lenN_takeN; rewrite lenN_dropN; lia).
  assert (Hh : lenN (takeN h d) = h) by (apply lenN_takeN; lia).
  assert (D1 : dropN h (d ++ rest) = v ++ d2 ++ rest).
  { rewrite D at 1. rewrite <- !app_assoc. apply dropN_app'. symmetry; exact Hh. }
  assert (D2 : dropN (h + len) (d ++ rest) = d2 ++ rest).
  { unfold d2. apply dropN_app_le. lia. }
  rewrite D1, D2. replace (lenN d - (h + len)) with (lenN d2) by (unfold d2; apply lenN_dropN).
  destruct (pitems f c d2 (lenN d2)) as [l st] eqn:Ep. cbn [fold_place]. unfold place_item. cbn [fst snd].
  rewrite <- Hv. rewrite (place_local Tail c es ti v (d2 ++ rest) r0) by auto.
  rewrite bind_assoc. apply bind_ext. intros s _. rewrite IH by exact Hrest. rewrite Ep. reflexivity.
Qed.

Lemma pitems_fuel c : cfg_ok c -> forall f1 f2 d, (length d < f1)%nat -> (length d < f2)%nat ->
  pitems f1 c d (lenN d) = pitems f2 c d (lenN d).
Proof.
  intros Hok. induction f1 as [|f1 IH]; intros f2 d H1 H2; [lia|]. destruct f2 as [|f2]; [lia|].
  cbn [pitems]. destruct (lenN d =? 0) eqn:E0; [reflexivity|]. destruct (lenN d <? cfg_min c) eqn:E1; [reflexivity|].
  pose proof (ok_load c Hok d (lenN d) ltac:(lia) ltac:(lia)) as Hld. pose proof (ok_min c Hok) as Hm.
  destruct (cfg_load c d (lenN d)) as [[[ti len] h]|e|u]; try reflexivity.
  destruct (lenN d <? h + len) eqn:E2; [reflexivity|].
  rewrite <- (lenN_dropN (h + len) d). rewrite (IH f2); [reflexivity| |];
  pose proof (lenN_dropN (h + len) d) as Hx; unfold lenN in *; lia.
Qed.

Definition parsed c d : list item * res unit := pitems (S (length d)) c d (lenN d).

Lemma pitems_not_ub c : cfg_ok c -> forall f d, (length d < f)%nat -> is_ub (snd (pitems f c d (lenN d))) = false.
Proof.
  intros Hok. induction f as [|f IH]; intros d H1; [lia|].
  cbn [pitems]. destruct (lenN d =? 0) eqn:E0; [reflexivity|]. destruct (lenN d <? cfg_min c) eqn:E1; [reflexivity|].
  pose proof (ok_load c Hok d (lenN d) ltac:(lia) ltac:(lia)) as Hld. pose proof (ok_min c Hok) as Hm.
  destruct (cfg_load c d (lenN d)) as [[[ti len] h]|e|u]; try reflexivity; [|contradiction].
  destruct (lenN d <? h + len) eqn:E2; [reflexivity|].
  rewrite <- (lenN_dropN (h + len) d). specialize (IH (dropN (h + len) d)).
  destruct (pitems f c (dropN (h + len) d) (lenN (dropN (h + len) d))) as [l st]. cbn [snd] in *. apply IH.
  pose proof (lenN_dropN (h + len) d) as Hx; unfold lenN in *; lia.
Qed.

(* [load_all]/[parse] agree with [pitems] *)
Lemma load_all_pitems c fuel : cfg_ok c -> forall g, linv g ->
  load_all fuel c g =
  let '(items, st) := pitems fuel c (dropN (ld_pos g) (ld_mem g)) (ld_srclen g - ld_pos g) in _ <- st ;; Ok items.
Proof.
  intros Hok. induction fuel as [|f IH]; intros g Hi; cbn [load_all pitems]; [reflexivity|].
  destruct Hi as [Hp Hm]. rewrite load_next_rem by exact Hp. cbv zeta.
  destruct (_ =? 0) eqn:E0; [reflexivity|]. destruct (_ <? cfg_min c) eqn:E1; [reflexivity|].
  pose proof (ok_load c Hok (dropN (ld_pos g) (ld_mem g)) (ld_srclen g - ld_pos g)
                ltac:(rewrite lenN_dropN; lia) ltac:(lia)) as Hld.
  destruct (cfg_load c _ _) as [[[ti len] h]|e|u] eqn:El; try reflexivity.
  destruct (_ <? h + len) eqn:E2; [reflexivity|]. cbn [ld_val ld_ti ld_mem ld_len].
  rewrite dropN_dropN. unfold rdN. rewrite lenN_dropN.
  destruct (N.leb_spec len (lenN (ld_mem g) - (ld_pos g + h))); [|lia]. cbn [bind].
  rewrite IH; unfold linv, ld_pos; cbn [ld_val ld_len ld_srclen ld_mem].
  - fold (ld_pos g). rewrite dropN_dropN. replace (ld_pos g + h + len) with (ld_pos g + (h + len)) by lia.
    replace (ld_srclen g - (ld_pos g + (h + len))) with (ld_srclen g - ld_pos g - (h + len)) by lia.
    destruct (pitems f c _ _) as [l st]. destruct st; reflexivity.
  - fold (ld_pos g). lia.
Qed.

Lemma parse_parsed c d : cfg_ok c ->
  parse c d (lenN d) = let '(items, st) := parsed c d in _ <- st ;; Ok items.
Proof.
  intros Hok. unfold parse, parsed. rewrite budget_all. rewrite load_all_pitems; [|assumption|unfold linv, ld_pos; cbn; lia].
  unfold ld_pos; cbn [ld_val load_start ld_mem ld_srclen]. rewrite dropN_0, N.sub_0_r. reflexivity.
Qed.

(* the main refinement: unordered decoding = placing the parsed items one after the other *)
Definition init_slots es : list (slot V) := map (fun _ => []) es.

Lemma decode_unordered_items Tail c es r0 d rest :
  cfg_ok c -> tail_closed Tail -> Tail r0 -> Tail rest -> Forall (entry_local Tail c false) es ->
  decode_unordered c es (d ++ rest) (lenN d) =
  let '(items, st) := parsed c d in
  s <- fold_place c es r0 (init_slots es) items ;; _ <- st ;; _ <- check_mand 0 es s ;; Ok s.
Proof.
  intros Hok Htc Hr0 Hrest Hloc. unfold decode_unordered.
  rewrite unord_loop_walk by (unfold ld_pos; cbn; lia).
  unfold ld_pos; cbn [ld_val load_start ld_mem ld_srclen]. rewrite dropN_0, N.sub_0_r.
  rewrite (walk_pitems Tail c es r0) by assumption. unfold parsed.
  rewrite budget_app.
  destruct (pitems (S (length d)) c d (lenN d)) as [l st]. fold (init_slots es).
  rewrite bind_assoc. apply bind_ext. intros s _. destruct st; reflexivity.
Qed.

(* ---------------------------------------------------------------- memory safety, unordered *)
Lemma check_mand_safe es : forall idx slots, is_ub (check_mand idx es slots) = false.
Proof.
  induction es as [|e es IH]; intros idx slots; cbn [check_mand]; [reflexivity|].
  destruct slots as [|s slots]; [reflexivity|]. destruct (h_pres (e_h e)); [apply IH|].
  destruct (h_multi (e_h e)) as [[mx mand]|].
  - destruct (_ <? _); [reflexivity|apply IH].
  - destruct (_ <=? _); [reflexivity|]. destruct (nonempty s); [apply IH|reflexivity].
Qed.

Lemma fold_place_safe Tail c es r0 items : Forall (entry_safe Tail c false) es -> Tail r0 ->
  forall slots, is_ub (fold_place c es r0 slots items) = false.
Proof.
  intros Hs Hr. induction items as [|it items IH]; intros slots; cbn [fold_place]; [reflexivity|].
  apply is_ub_bind; [eapply place_safe; eassumption|auto].
Qed.

Lemma decode_unordered_safe Tail c es d rest :
  cfg_ok c -> tail_closed Tail -> Tail rest ->
  Forall (entry_local Tail c false) es -> Forall (entry_safe Tail c false) es ->
  is_ub (decode_unordered c es (d ++ rest) (lenN d)) = false.
Proof.
  intros Hok Htc Hrest Hloc Hsafe. rewrite (decode_unordered_items Tail c es rest) by assumption.
  pose proof (pitems_not_ub c Hok (S (length d)) d ltac:(lia)) as Hn.
  unfold parsed. destruct (pitems (S (length d)) c d (lenN d)) as [l st]. cbn [snd] in Hn.
  apply is_ub_bind; [eapply fold_place_safe; eassumption|]. intros s _.
  apply is_ub_bind; [exact Hn|]. intros _ _. apply is_ub_bind; [apply check_mand_safe|]. reflexivity.
Qed.

(* ---------------------------------------------------------------- C09: unknown IEs are ignored *)
Lemma place_unknown c es ti m len :
  Forall (fun e => ti_match (h_ti (e_h e)) ti = false) es ->
  forall idx slots, length slots = length es -> place c es idx 0 slots ti m len = Ok slots.
Proof.
  induction 1 as [|e es He H IH]; intros idx slots Hl; cbn [place].
  - rewrite N.eqb_refl. reflexivity.
  - destruct slots as [|s slots]; [discriminate|]. rewrite He. cbn [negb]. rewrite IH; [reflexivity|]. cbn in Hl; lia.
Qed.

Lemma place_length c es ti m len : forall idx al slots slots',
  place c es idx al slots ti m len = Ok slots' -> length slots' = length slots.
Proof.
  induction es as [|e es IH]; intros idx al slots slots' H; cbn [place] in H.
  { destruct (al =? 0); inversion H; reflexivity. }
  destruct slots as [|s slots]; [destruct (al =? 0); inversion H; reflexivity|].
  destruct (negb _). { apply bind_ok in H as (r & Hr & H). inversion H; subst. cbn. f_equal. eapply IH; eassumption. }
  destruct (_ || _). { apply bind_ok in H as (r & Hr & H). inversion H; subst. cbn. f_equal. eapply IH; eassumption. }
  destruct (_ && (seen_max <=? idx)); [discriminate|].
  destruct (_ && nonempty s). { apply bind_ok in H as (r & Hr & H). inversion H; subst. cbn. f_equal. eapply IH; eassumption. }
  apply bind_ok in H as (r & Hr & H). destruct (seen_max <=? idx); inversion H; subst. reflexivity.
Qed.

Lemma fold_place_app c es r0 i1 i2 : forall slots,
  fold_place c es r0 slots (i1 ++ i2) = s <- fold_place c es r0 slots i1 ;; fold_place c es r0 s i2.
Proof.
  induction i1 as [|it i1 IH]; intros slots; cbn [app fold_place bind]; [reflexivity|].
  rewrite bind_assoc. apply bind_ext. intros s _. apply IH.
Qed.
Lemma fold_place_length c es r0 items : forall slots slots',
  fold_place c es r0 slots items = Ok slots' -> length slots' = length slots.
Proof.
  induction items as [|it items IH]; intros slots slots' H; cbn [fold_place] in H; [inversion H; reflexivity|].
  apply bind_ok in H as (s & Hs & H). apply IH in H. apply place_length in Hs. congruence.
Qed.

Lemma pitems_ser1 c rep hdr it d f :
  cfg_rt c rep hdr -> rep (fst it) (lenN (snd it)) -> 1 <= cfg_min c ->
  pitems (S f) c (ser1 hdr it ++ d) (lenN (ser1 hdr it ++ d)) =
  let '(l, st) := pitems f c d (lenN d) in (it :: l, st).
Proof.
  intros Hrt Hrep Hmin. cbn [pitems]. pose proof (rt_min _ _ _ Hrt _ _ Hrep) as Hm.
  unfold ser1. rewrite !lenN_app. set (h := hdr (fst it) (lenN (snd it))) in *.
  dif E0; [lia|]. dif E1; [lia|]. rewrite <- app_assoc. unfold h. erewrite rt_load by (eauto; fold h; lia). fold h.
  dif E2; [lia|]. rewrite dropN_app, takeN_app. rewrite app_assoc.
  rewrite (dropN_app' _ (h ++ snd it) d) by (rewrite lenN_app; reflexivity).
  replace (_ - (lenN h + lenN (snd it))) with (lenN d) by lia.
  destruct (pitems f c d (lenN d)) as [l st]. destruct it; reflexivity.
Qed.

Lemma parsed_ser c rep hdr items d :
  cfg_ok c -> cfg_rt c rep hdr -> rep_items rep items ->
  parsed c (ser hdr items ++ d) = let '(l, st) := parsed c d in (items ++ l, st).
Proof.
  intros Hok Hrt Hr. unfold parsed. pose proof (ok_min c Hok) as Hmin. induction Hr as [|it items Hit Hr IH].
  - cbn [ser map concat app]. destruct (pitems _ c d (lenN d)); reflexivity.
  - change (ser hdr (it :: items)) with (ser1 hdr it ++ ser hdr items). rewrite <- app_assoc.
    erewrite pitems_ser1 by eassumption.
    pose proof (rt_min _ _ _ Hrt _ _ Hit) as Hm.
    rewrite (pitems_fuel c Hok _ (S (length (ser hdr items ++ d)))); [|unfold ser1; rewrite !app_length; unfold lenN in Hm at 1; lia|lia].
    rewrite IH. destruct (pitems (S (length d)) c d (lenN d)) as [l st]. reflexivity.
Qed.

Lemma decode_ignores_unknown Tail c rep hdr es items u d rest rest' :
  cfg_ok c -> cfg_rt c rep hdr -> tail_closed Tail -> Tail rest -> Tail rest' -> Forall (entry_local Tail c false) es ->
  rep_items rep items -> rep (fst u) (lenN (snd u)) ->
  Forall (fun e => ti_match (h_ti (e_h e)) (fst u) = false) es ->
  decode_unordered c es ((ser hdr items ++ ser1 hdr u ++ d) ++ rest) (lenN (ser hdr items ++ ser1 hdr u ++ d))
  = decode_unordered c es ((ser hdr items ++ d) ++ rest') (lenN (ser hdr items ++ d)).
Proof.
  intros Hok Hrt Htc Hr Hr' Hloc Hit Hu Hunk.
  rewrite (decode_unordered_items Tail c es rest _ rest), (decode_unordered_items Tail c es rest _ rest') by assumption.
  assert (Hu1 : ser1 hdr u ++ d = ser hdr [u] ++ d) by (unfold ser; cbn [map concat]; rewrite app_nil_r; reflexivity).
  rewrite Hu1. rewrite !(parsed_ser c rep hdr) by (try assumption; repeat constructor; assumption).
  destruct (parsed c d) as [l st]. rewrite !fold_place_app. cbn [fold_place].
  destruct (fold_place c es rest (init_slots es) items) as [s|e|ub] eqn:E; try reflexivity. cbn [bind app].
  cbn [fold_place]. unfold place_item. rewrite place_unknown; [reflexivity|assumption|].
  apply fold_place_length in E. rewrite E. unfold init_slots. apply map_length.
Qed.

(* ---------------------------------------------------------------- C10: order of different tags is irrelevant *)

(* placing item a does not look at, nor change, members of other tags *)
Lemma place_comm c es ta ma la tb mb lb :
  ti_match ta tb = false ->
  forall idx ala alb slots s1 s2, length slots = length es ->
  place c es idx ala slots ta ma la = Ok s1 -> place c es idx alb s1 tb mb lb = Ok s2 ->
  exists s1', place c es idx alb slots tb mb lb = Ok s1' /\ place c es idx ala s1' ta ma la = Ok s2.
Proof.
  intros Hab. induction es as [|e es IH]; intros idx ala alb slots s1 s2 Hl Ha Hb.
  { cbn [place] in *. destruct (ala =? 0); inversion Ha; subst. destruct (alb =? 0); inversion Hb; subst.
    eauto. }
  destruct slots as [|s slots]; [discriminate|]. assert (Hl' : length slots = length es) by (cbn in Hl; lia).
  cbn [place] in Ha.
  destruct (ti_match (h_ti (e_h e)) ta) eqn:Eta; cbn [negb] in Ha.
  - assert (Etb : ti_match (h_ti (e_h e)) tb = false).
    { destruct (ti_match (h_ti (e_h e)) tb) eqn:E; [|reflexivity].
      rewrite ti_match_sym in Eta. rewrite (ti_match_trans _ _ _ Eta E) in Hab. discriminate. }
    assert (Hskip : forall r ala', (r0 <- place c es (idx + 1) ala' slots ta ma la;; Ok (s :: r0)) = Ok r ->
       place c (e :: es) idx alb r tb mb lb = Ok s2 ->
       exists s1'', place c (e :: es) idx alb (s :: slots) tb mb lb = Ok (s :: s1'')
          /\ (exists r2, place c es (idx + 1) ala' s1'' ta ma la = Ok r2 /\ s2 = s :: r2)).
    { intros r ala' H1 H2. apply bind_ok in H1 as (r0 & Hr0 & H1). inversion H1; subst; clear H1.
      cbn [place] in H2. rewrite Etb in H2. cbn [negb] in H2. apply bind_ok in H2 as (r2 & Hr2 & H2). inversion H2; subst; clear H2.
      destruct (IH _ _ _ _ _ _ Hl' Hr0 Hr2) as (s1'' & H3 & H4).
      exists s1''. cbn [place]. rewrite Etb. cbn [negb]. rewrite H3. split; [reflexivity|eauto]. }
    dif_in Ha Ef.
    { destruct (Hskip _ _ Ha Hb) as (s1'' & H1 & r2 & H2 & ->). exists (s :: s1''). split; [exact H1|].
      cbn [place]. rewrite Eta. cbn [negb]. rewrite Ef, H2. reflexivity. }
    dif_in Ha Es; [discriminate|].
    dif_in Ha Ep.
    { destruct (Hskip _ _ Ha Hb) as (s1'' & H1 & r2 & H2 & ->). exists (s :: s1''). split; [exact H1|].
      cbn [place]. rewrite Eta. cbn [negb]. rewrite Ef, Es, Ep, H2. reflexivity. }
    apply bind_ok in Ha as (v & Hv & Ha). destruct (seen_max <=? idx) eqn:Ei; inversion Ha; subst; clear Ha.
    cbn [place] in Hb. rewrite Etb in Hb. cbn [negb] in Hb. apply bind_ok in Hb as (r2 & Hr2 & Hb). inversion Hb; subst; clear Hb.
    exists (s :: r2). cbn [place]. rewrite Etb, Eta. cbn [negb]. rewrite Hr2, Ef, Ei, Ep, Hv. cbn [bind].
    rewrite andb_false_r. split; reflexivity.
  - apply bind_ok in Ha as (r0 & Hr0 & Ha). inversion Ha; subst; clear Ha.
    cbn [place] in Hb.
    destruct (ti_match (h_ti (e_h e)) tb) eqn:Etb; cbn [negb] in Hb.
    + dif_in Hb Ef.
      { apply bind_ok in Hb as (r2 & Hr2 & Hb). inversion Hb; subst; clear Hb.
        destruct (IH _ _ _ _ _ _ Hl' Hr0 Hr2) as (s1'' & H3 & H4). exists (s :: s1'').
        cbn [place]. rewrite Etb, Eta. cbn [negb]. rewrite Ef, H3. cbn [bind]. rewrite H4. split; reflexivity. }
      dif_in Hb Es; [discriminate|].
      dif_in Hb Ep.
      { apply bind_ok in Hb as (r2 & Hr2 & Hb). inversion Hb; subst; clear Hb.
        destruct (IH _ _ _ _ _ _ Hl' Hr0 Hr2) as (s1'' & H3 & H4). exists (s :: s1'').
        cbn [place]. rewrite Etb, Eta. cbn [negb]. rewrite Ef, Es, Ep, H3. cbn [bind]. rewrite H4. split; reflexivity. }
      apply bind_ok in Hb as (v & Hv & Hb). destruct (seen_max <=? idx) eqn:Ei; inversion Hb; subst; clear Hb.
      exists ((s ++ [v]) :: slots). cbn [place]. rewrite Etb, Eta. cbn [negb]. rewrite Ef, Ei, Ep, Hv, Hr0.
      rewrite andb_false_r. split; reflexivity.
    + apply bind_ok in Hb as (r2 & Hr2 & Hb). inversion Hb; subst; clear Hb.
      destruct (IH _ _ _ _ _ _ Hl' Hr0 Hr2) as (s1'' & H3 & H4). exists (s :: s1'').
      cbn [place]. rewrite Etb, Eta. cbn [negb]. rewrite H3. cbn [bind]. rewrite H4. split; reflexivity.
Qed.

(* reorderings that exchange neighbouring items of different tags *)


Lemma fold_place_reorder c es r0 l l' : reorder l l' -> forall slots s, length slots = length es ->
  fold_place c es r0 slots l = Ok s -> fold_place c es r0 slots l' = Ok s.
Proof.
  induction 1 as [l|l1 a b l2 Hab|l1 l2 l3 H1 IH1 H2 IH2]; intros slots s Hl H; auto.
  rewrite fold_place_app in *. destruct (fold_place c es r0 slots l1) as [s0|e|u] eqn:E; try discriminate. cbn [bind] in *.
  cbn [fold_place] in *. apply bind_ok in H as (sa & Ha & H). apply bind_ok in H as (sb & Hb & H).
  apply fold_place_length in E.
  destruct (place_comm c es _ _ _ _ _ _ Hab 0 0 0 s0 sa sb ltac:(congruence) Ha Hb) as (s1' & H1 & H2).
  unfold place_item at 1. rewrite H1. cbn [bind]. unfold place_item. rewrite H2. exact H.
Qed.

Lemma reorder_rep rep l l' : reorder l l' -> rep_items rep l -> rep_items rep l'.
Proof.
  unfold rep_items. induction 1 as [l|l1 a b l2 Hab|l1 l2 l3 H1 IH1 H2 IH2]; auto.
  rewrite !Forall_app. intros [H1 H2]. inversion_clear H2 as [|? ? Ha H3]. inversion_clear H3. auto.
Qed.

Lemma decode_reorder Tail c rep hdr es items items' rest rest' slots :
  cfg_ok c -> cfg_rt c rep hdr -> tail_closed Tail -> Tail rest -> Tail rest' -> Forall (entry_local Tail c false) es ->
  rep_items rep items -> reorder items items' ->
  decode_unordered c es (ser hdr items ++ rest) (lenN (ser hdr items)) = Ok slots ->
  decode_unordered c es (ser hdr items' ++ rest') (lenN (ser hdr items')) = Ok slots.
Proof.
  intros Hok Hrt Htc Hr Hr' Hloc Hit Hre.
  rewrite (decode_unordered_items Tail c es rest _ rest), (decode_unordered_items Tail c es rest _ rest') by assumption.
  pose proof (parsed_ser c rep hdr items [] Hok Hrt Hit) as E1.
  pose proof (parsed_ser c rep hdr items' [] Hok Hrt (reorder_rep _ _ _ Hre Hit)) as E2.
  rewrite !app_nil_r in *. rewrite E1, E2. change (parsed c []) with (@nil item, Ok tt). cbv iota beta. rewrite !app_nil_r.
  intros H. apply bind_ok in H as (s & Hs & H).
  assert (Hl : length (init_slots es) = length es) by apply map_length.
  rewrite (fold_place_reorder _ _ _ _ _ Hre _ _ Hl Hs). exact H.
Qed.

End Proofs.
