(* MemProofs.v -- the decoder / encoder on the memory of the C struct refine those of DecEncModel.v / StrModel.v *)
From Verif Require Import Base BaseProofs GtlvModel DecEncModel DecEncSpec StrModel MemModel MemSpec.
Local Open Scope N_scope.

(* ---------------------------------------------------------------- memory *)
Lemma peek_iff a n m l : bytes_at a n m l <-> peek a n m = Ok l.
Proof.
  unfold bytes_at, peek. split.
  - intros (x & y & -> & <- & <-). rewrite !lenN_app.
    destruct (N.leb_spec (lenN x + lenN l) (lenN x + (lenN l + lenN y))); [|lia].
    rewrite dropN_app, takeN_app. reflexivity.
  - destruct (N.leb_spec (a + n) (lenN m)); [|discriminate]. intros [= <-].
    exists (takeN a m), (dropN (a + n) m). split.
    + rewrite <- (takeN_dropN a m) at 1. f_equal. rewrite <- (takeN_dropN n (dropN a m)) at 1. f_equal.
      rewrite dropN_dropN. reflexivity.
    + split; [apply lenN_takeN; lia|]. rewrite lenN_takeN; [reflexivity|]. rewrite lenN_dropN. lia.
Qed.
Lemma peek_ok a n m : a + n <= lenN m -> exists l, peek a n m = Ok l /\ lenN l = n.
Proof.
  intros H. unfold peek. destruct (N.leb_spec (a + n) (lenN m)); [|lia]. eexists. split; [reflexivity|].
  apply lenN_takeN. rewrite lenN_dropN. lia.
Qed.
Lemma peek_len a n m l : peek a n m = Ok l -> lenN l = n /\ a + n <= lenN m.
Proof.
  unfold peek. destruct (N.leb_spec (a + n) (lenN m)); [|discriminate]. intros [= <-]. split; [|easy].
  apply lenN_takeN. rewrite lenN_dropN. lia.
Qed.
Lemma takeN_takeN {A} i j (l : list A) : i <= j -> takeN i (takeN j l) = takeN i l.
Proof. intros H. unfold takeN. rewrite firstn_firstn. f_equal. lia. Qed.
Lemma dropN_takeN {A} i j (l : list A) : dropN i (takeN j l) = takeN (j - i) (dropN i l).
Proof. unfold dropN, takeN. rewrite skipn_firstn_comm. f_equal. lia. Qed.
Lemma peek_sub a n b k m l : peek a n m = Ok l -> a <= b -> b + k <= a + n -> peek b k m = Ok (takeN k (dropN (b - a) l)).
Proof.
  intros H H1 H2. destruct (peek_len _ _ _ _ H) as [_ HL]. unfold peek in *.
  destruct (N.leb_spec (a + n) (lenN m)); [|lia]. destruct (N.leb_spec (b + k) (lenN m)); [|lia].
  injection H as <-. rewrite dropN_takeN, takeN_takeN by lia. rewrite dropN_dropN. do 3 f_equal. lia.
Qed.

Definition agree (a n : N) (m m' : list N) : Prop := forall b k, a <= b -> b + k <= a + n -> peek b k m' = peek b k m.
Lemma agree_sub a n b k m m' : agree a n m m' -> a <= b -> b + k <= a + n -> agree b k m m'.
Proof. intros H H1 H2 x y Hx Hy. apply H; lia. Qed.
Lemma agree_trans a n m m' m'' : agree a n m m' -> agree a n m' m'' -> agree a n m m''.
Proof. intros H1 H2 x y Hx Hy. rewrite H2, H1; auto. Qed.

Definition same_but (rs : list region) (m m' : list N) : Prop :=
  lenN m' = lenN m /\ forall b k, Forall (apart (b, k)) rs -> peek b k m' = peek b k m.
Lemma same_refl rs m : same_but rs m m.
Proof. split; auto. Qed.
Lemma same_trans rs m m' m'' : same_but rs m m' -> same_but rs m' m'' -> same_but rs m m''.
Proof. intros [H1 H2] [H3 H4]. split; [lia|]. intros b k Hb. rewrite H4, H2; auto. Qed.
Lemma same_mono rs rs' m m' : same_but rs m m' -> (forall b k, Forall (apart (b, k)) rs' -> Forall (apart (b, k)) rs) -> same_but rs' m m'.
Proof. intros [H1 H2] H. split; auto. Qed.
Lemma same_agree rs m m' a n : same_but rs m m' -> Forall (apart (a, n)) rs -> agree a n m m'.
Proof.
  intros [_ H] Ha b k Hb Hk. apply H. revert Ha. apply Forall_impl. intros r. unfold apart. cbn. lia.
Qed.
Lemma apart_sym r s : apart r s -> apart s r.
Proof. unfold apart. lia. Qed.

Lemma wr_ok a bs m : a + lenN bs <= lenN m ->
  exists m', wr a bs m = (m', Ok tt) /\ same_but [(a, lenN bs)] m m' /\ peek a (lenN bs) m' = Ok bs.
Proof.
  intros H. unfold wr. destruct (N.leb_spec (a + lenN bs) (lenN m)); [|lia]. eexists. split; [reflexivity|].
  assert (HL : lenN (takeN a m) = a) by (apply lenN_takeN; lia).
  assert (HT : lenN (takeN a m ++ bs ++ dropN (a + lenN bs) m) = lenN m).
  { rewrite !lenN_app, lenN_dropN, HL. lia. }
  split; [split; [exact HT|]|].
  - intros b k Hb. apply Forall_inv in Hb. unfold apart in Hb. cbn [fst snd] in Hb. unfold peek. rewrite HT.
    destruct (N.leb_spec (b + k) (lenN m)); [|reflexivity]. f_equal.
    destruct Hb as [Hb|Hb].
    + rewrite dropN_app_le by lia. rewrite takeN_app_le by (rewrite lenN_dropN; lia).
      rewrite dropN_takeN, takeN_takeN by lia. reflexivity.
    + replace (dropN b (takeN a m ++ bs ++ dropN (a + lenN bs) m)) with (dropN b m); [reflexivity|].
      rewrite app_assoc. replace b with (lenN (takeN a m ++ bs) + (b - a - lenN bs)) at 2 by (rewrite lenN_app; lia).
      rewrite <- dropN_dropN, dropN_app, dropN_dropN. f_equal. lia.
  - apply peek_iff. exists (takeN a m), (dropN (a + lenN bs) m). auto.
Qed.
Lemma y2b_b2y b : y2b (b2y b) = b.
Proof. destruct b; reflexivity. Qed.
Lemma u2y_len be x : lenN (u2y be x) = 4.
Proof. unfold u2y. destruct be; unfold lenN; rewrite ?rev_length, be_put_length; reflexivity. Qed.
Lemma y2u_u2y be x : x < 2 ^ 32 -> y2u be (u2y be x) = x.
Proof. intros H. unfold u2y, y2u. destruct be; rewrite ?rev_involutive; apply be_get_put; exact H. Qed.
Lemma u32_small x : x < 2 ^ 32 -> u32 x = x.
Proof. intros. unfold u32. apply N.mod_small. assumption. Qed.

Definition zeroed (a n : N) (m : list N) : Prop := exists l, peek a n m = Ok l /\ Forall (fun b => b = 0) l.
Lemma Forall_takeN {A} (P : A -> Prop) n l : Forall P l -> Forall P (takeN n l).
Proof. intros H. rewrite <- (takeN_dropN n l) in H. apply Forall_app in H. tauto. Qed.
Lemma Forall_dropN {A} (P : A -> Prop) n l : Forall P l -> Forall P (dropN n l).
Proof. intros H. rewrite <- (takeN_dropN n l) in H. apply Forall_app in H. tauto. Qed.
Lemma zeroed_sub a n b k m : zeroed a n m -> a <= b -> b + k <= a + n -> zeroed b k m.
Proof.
  intros (l & H & Hz) H1 H2. eexists. split; [exact (peek_sub _ _ _ _ _ _ H H1 H2)|].
  apply Forall_takeN, Forall_dropN, Hz.
Qed.
Lemma zeroed_agree a n m m' : agree a n m m' -> zeroed a n m -> zeroed a n m'.
Proof. intros H (l & H1 & H2). exists l. split; [|exact H2]. rewrite H by lia. exact H1. Qed.
Lemma zeros4 be l : lenN l = 4 -> Forall (fun b => b = 0) l -> y2u be l = 0.
Proof.
  intros HL HF. assert (E : l = [0; 0; 0; 0]).
  { destruct l as [|a [|b [|c [|d [|e l]]]]]; try (exfalso; unfold lenN in HL; cbn [length] in HL; lia).
    inversion_clear HF as [|? ? ? H1]. inversion_clear H1 as [|? ? ? H2]. inversion_clear H2 as [|? ? ? H3]. inversion_clear H3. subst. reflexivity. }
  subst l. destruct be; reflexivity.
Qed.
Lemma zeros1 l : lenN l = 1 -> Forall (fun b => b = 0) l -> y2b l = false.
Proof.
  intros HL HF. destruct l as [|a [|b l]]; try (exfalso; unfold lenN in HL; cbn [length] in HL; lia).
  inversion_clear HF. subst. reflexivity.
Qed.

Section P.
Context {V K : Type}.
Variable lk : K -> mleaf.
Variable la : K -> leaf V.
Variable ld : K -> list N -> V.
Variable be : bool.
Variable dsz : N.
Hypothesis Hdsz : dsz < 2 ^ 32.

Notation msize := (msize lk). Notation regions := (regions lk). Notation laid := (laid lk).
Notation val_held := (val_held lk ld be). Notation struct_held := (struct_held lk ld be).
Notation erase := (erase la). Notation mdec_coding := (mdec_coding lk be dsz).
Notation slot_held := (slot_held be).

Lemma mcoding_ind' (P : mcoding K -> Prop) :
  (forall h k, P (MLeaf h k)) -> (forall h sz nc o ies, Forall P ies -> P (MNest h sz nc o ies)) -> forall cd, P cd.
Proof.
  intros H1 H2. fix IH 1. intros [h k|h sz nc o ies]; [apply H1|]. apply H2. induction ies; constructor; auto.
Qed.
Lemma val_held_nest st h sz nc o ies a m slots :
  val_held st (MNest h sz nc o ies) a m (VStruct slots) <-> struct_held st ies a m slots.
Proof.
  unfold MemSpec.struct_held. cbn [MemSpec.val_held]. revert slots. induction ies as [|d ies IH]; intros [|s slots].
  - split; constructor.
  - split; [easy|]. intros H. inversion H.
  - split; [easy|]. intros H. inversion H.
  - rewrite IH. split; [intros [H1 H2]; constructor; auto|]. intros H. inversion H; auto.
Qed.
Lemma laid_nest h sz nc o ies : laid (MNest h sz nc o ies) <-> layout_ok lk sz ies.
Proof.
  unfold layout_ok. cbn [MemSpec.laid]. assert (E : fold_right (fun d acc => laid d /\ acc) True ies <-> Forall laid ies).
  { induction ies; cbn; [split; constructor|]. rewrite IHies. split; [intros [? ?]; constructor; auto|]. intros H. inversion H; auto. }
  rewrite E. reflexivity.
Qed.
Lemma laid_pos cd : laid cd -> 0 < msize cd.
Proof. destruct cd; [easy|]. rewrite laid_nest. intros [[H _] _]. exact H. Qed.

Definition pitched (d : mcoding K) : Prop :=
  match h_multi (mh_h (mhd d)) with Some _ => msize d <= mh_pitch (mhd d) | None => True end.

Lemma elem_in d i mx q : pitched d -> h_multi (mh_h (mhd d)) = Some (mx, q) -> i < mx ->
  mh_ofs (mhd d) + i * mh_pitch (mhd d) + msize d <= mh_ofs (mhd d) + mx * mh_pitch (mhd d).
Proof. unfold pitched. intros H E Hi. rewrite E in H. nia. Qed.

(* the frame property *)
Definition regs_agree (d : mcoding K) (obj : N) (m m' : list N) : Prop :=
  Forall (fun r => agree (obj + fst r) (snd r) m m') (regions d).
Lemma regs_flag d obj m m' : regs_agree d obj m m' -> h_pres (mh_h (mhd d)) = true -> agree (obj + mh_pofs (mhd d)) 1 m m'.
Proof.
  unfold regs_agree, MemSpec.regions. intros H E. rewrite E in H. inversion_clear H as [|? ? _ H1]. inversion_clear H1. assumption.
Qed.
Lemma regs_count d obj m m' p : regs_agree d obj m m' -> h_multi (mh_h (mhd d)) = Some p -> agree (obj + mh_cofs (mhd d)) 4 m m'.
Proof.
  unfold regs_agree, MemSpec.regions. intros H E. rewrite E in H. inversion_clear H as [|? ? _ H1]. apply Forall_app in H1 as [_ H1].
  inversion_clear H1. assumption.
Qed.
Lemma regs_memb d obj m m' : regs_agree d obj m m' ->
  agree (obj + mh_ofs (mhd d)) (match h_multi (mh_h (mhd d)) with Some (mx, _) => mx * mh_pitch (mhd d) | None => msize d end) m m'.
Proof. unfold regs_agree, MemSpec.regions. intros H. inversion_clear H. assumption. Qed.

Lemma bytes_agree a n m m' l : agree a n m m' -> bytes_at a n m l -> bytes_at a n m' l.
Proof. rewrite !peek_iff. intros H E. rewrite H by lia. exact E. Qed.

Lemma slot_held_agree st d obj m m' s :
  (forall a v, agree a (msize d) m m' -> val_held st d a m v -> val_held st d a m' v) -> pitched d ->
  regs_agree d obj m m' -> slot_held st (mhd d) (val_held st d) obj m s -> slot_held st (mhd d) (val_held st d) obj m' s.
Proof.
  intros IH Hp HA [H1 H2]. split.
  - intros E. destruct (H1 E) as (l & Hl & E'). exists l. split; [|exact E']. eapply bytes_agree; [|exact Hl]. eapply regs_flag; eauto.
  - pose proof (regs_memb _ _ _ _ HA) as HM.
    destruct (h_multi (mh_h (mhd d))) as [[mx q]|] eqn:E.
    + destruct H2 as [(l & Hl & E') H2]. split.
      * exists l. split; [|exact E']. eapply bytes_agree; [|exact Hl]. eapply regs_count; eauto.
      * intros i v Hi Hm. apply IH; [|auto]. apply (agree_sub _ _ _ _ _ _ HM); [lia|].
        pose proof (elem_in d (N.of_nat i) mx q Hp E Hm). lia.
    + destruct s as [|v [|v' s]]; auto.
Qed.
Lemma regs_of_struct sz ies d obj m m' : table_laid lk sz ies -> In d ies -> agree obj sz m m' -> regs_agree d obj m m'.
Proof.
  intros (_ & HI & _) Hd HA. rewrite Forall_forall in HI. specialize (HI d Hd). unfold regs_agree.
  revert HI. apply Forall_impl. intros r Hr. unfold inside in Hr. apply (agree_sub _ _ _ _ _ _ HA); lia.
Qed.
Lemma table_pitched sz ies d : table_laid lk sz ies -> In d ies -> pitched d.
Proof. intros (_ & _ & _ & _ & H) Hd. rewrite Forall_forall in H. exact (H d Hd). Qed.
Lemma val_held_agree st cd : laid cd -> forall a m m' v, agree a (msize cd) m m' -> val_held st cd a m v -> val_held st cd a m' v.
Proof.
  induction cd as [h k|h sz nc o ies IH] using mcoding_ind'; intros HL a m m' v HA.
  - destruct v as [x|]; [|easy]. cbn [MemSpec.val_held]. intros (l & Hl & E). exists l. split; [|exact E]. eapply bytes_agree; eauto.
  - destruct v as [x|slots]; [easy|]. rewrite !val_held_nest. apply laid_nest in HL as [HT HF]. cbn [MemSpec.msize] in HA.
    intros H. unfold MemSpec.struct_held in *.
    assert (HX : Forall (fun d => regs_agree d a m m' /\ pitched d) ies).
    { apply Forall_forall. intros d Hd. split; [eapply regs_of_struct; eauto|eapply table_pitched; eauto]. }
    clear HT HA. induction H as [|d s ies slots Hs H IHl]; constructor.
    + inversion_clear HX as [|? ? [HX1 HX2] _]. inversion_clear IH as [|? ? IHd _]. inversion_clear HF.
      eapply slot_held_agree; [|exact HX2|exact HX1|exact Hs]. intros. eapply IHd; eauto.
    + inversion_clear HX. inversion_clear IH. inversion_clear HF. apply IHl; assumption.
Qed.

(* ---------------------------------------------------------------- the state of a member during decoding *)
Definition fresh_part (d : mcoding K) (obj : N) (m : list N) (s : slot V) : Prop :=
  match h_multi (mh_h (mhd d)) with
  | Some (mx, _) => lenN s <= mx /\ forall i, lenN s <= i -> i < mx -> zeroed (obj + mh_ofs (mhd d) + i * mh_pitch (mhd d)) (msize d) m
  | None => s = [] -> zeroed (obj + mh_ofs (mhd d)) (msize d) m
  end.
Definition slot_st (d : mcoding K) (obj : N) (m : list N) (s : slot V) : Prop :=
  slot_held false (mhd d) (val_held false d) obj m s /\ fresh_part d obj m s.

Lemma slot_st_agree d obj m m' s : laid d -> pitched d -> regs_agree d obj m m' -> slot_st d obj m s -> slot_st d obj m' s.
Proof.
  intros HL Hp HA [H1 H2]. split.
  - eapply slot_held_agree; [|exact Hp|exact HA|exact H1]. intros a v Ha Hv. exact (val_held_agree _ _ HL _ _ _ _ Ha Hv).
  - unfold fresh_part in *. pose proof (regs_memb _ _ _ _ HA) as HM.
    destruct (h_multi (mh_h (mhd d))) as [[mx q]|] eqn:E.
    + destruct H2 as [H2 H3]. split; [exact H2|]. intros i H4 H5. eapply zeroed_agree; [|exact (H3 i H4 H5)].
      apply (agree_sub _ _ _ _ _ _ HM); [lia|]. pose proof (elem_in d i mx q Hp E H5). lia.
    + intros Hs. eapply zeroed_agree; eauto.
Qed.

Lemma zeroed_slot sz ies d obj m : table_laid lk sz ies -> In d ies -> zeroed obj sz m -> slot_st d obj m [].
Proof.
  intros HT Hd Hz. pose proof (table_pitched _ _ _ HT Hd) as Hp. destruct HT as (_ & HI & _). rewrite Forall_forall in HI. specialize (HI d Hd).
  unfold MemSpec.regions in HI. inversion_clear HI as [|? ? HI1 HI2]. apply Forall_app in HI2 as [HI2 HI3]. unfold inside in HI1. cbn [fst snd] in HI1.
  split; [split|].
  - intros E. rewrite E in HI2. apply Forall_inv in HI2. unfold inside in HI2. cbn [fst snd] in HI2.
    destruct (zeroed_sub _ _ (obj + mh_pofs (mhd d)) 1 _ Hz) as (l & Hl & Hl0); try lia.
    exists l. split; [apply peek_iff; exact Hl|]. apply zeros1; [|exact Hl0]. apply (peek_len _ _ _ _ Hl).
  - destruct (h_multi (mh_h (mhd d))) as [[mx q]|] eqn:E; [|easy]. split; [|intros [|i] v; discriminate].
    apply Forall_inv in HI3. unfold inside in HI3. cbn [fst snd] in HI3.
    destruct (zeroed_sub _ _ (obj + mh_cofs (mhd d)) 4 _ Hz) as (l & Hl & Hl0); try lia.
    exists l. split; [apply peek_iff; exact Hl|]. rewrite lenN_nil. apply zeros4; [|exact Hl0]. apply (peek_len _ _ _ _ Hl).
  - unfold fresh_part. destruct (h_multi (mh_h (mhd d))) as [[mx q]|] eqn:E.
    + split; [rewrite lenN_nil; lia|]. intros i _ Hi. eapply zeroed_sub; [exact Hz|lia|].
      pose proof (elem_in d i mx q Hp E Hi). lia.
    + intros _. eapply zeroed_sub; [exact Hz|lia|]. lia.
Qed.

(* ---------------------------------------------------------------- simulation *)
Definition sim {A B} (rs : list region) (m : list N) (x : list N * res A) (y : res B) (R : list N -> A -> B -> Prop) : Prop :=
  match y with
  | Ok b => exists m' a, x = (m', Ok a) /\ same_but rs m m' /\ R m' a b
  | Err e => exists m', x = (m', Err e) /\ same_but rs m m'
  | UB _ => True
  end.

Definition entry_sim (d : mcoding K) : Prop := forall c o obj memb m len dm, lenN dm = dsz -> obj + memb + msize d <= dsz ->
  bytes_ok m -> zeroed (obj + memb) (msize d) dm ->
  sim [(obj + memb, msize d)] dm (mdec_coding d c o obj memb m len dm) (dec_coding (erase d) c o m len)
    (fun m' _ v => val_held false d (obj + memb) m' v).

Lemma head_erase d : head (erase d) = mh_h (mhd d).
Proof. destruct d; reflexivity. Qed.

Lemma membof_ok base ofs : ofs < dsz - base -> membof base (dsz - base) ofs = Ok (base + ofs).
Proof. intros H. unfold membof. destruct (N.ltb_spec ofs (dsz - base)); [reflexivity|lia]. Qed.

Lemma leaf_sim h k : dec_ok lk la ld k -> 0 < ml_size (lk k) -> entry_sim (MLeaf h k).
Proof.
  intros HD Hpos c o obj memb m len dm Hdm Hin Hb (l & Hl & Hz). cbn [MemSpec.msize] in *.
  cbn [MemModel.mdec_coding MemSpec.erase dec_coding]. unfold dec_ok in HD.
  destruct (lf_dec (la k)) as [f|], (ml_dec (lk k)) as [f'|]; try easy.
  2: { exists dm. split; [reflexivity|apply same_refl]. }
  specialize (HD l m len (proj1 (peek_len _ _ _ _ Hl)) Hz Hb). unfold bindm, lift. rewrite membof_ok by lia. cbv iota beta.
  unfold rd. rewrite Hl. cbv iota beta. destruct (f' l m len) as [new r].
  destruct (f m len) as [v|e|u]; cbn [bind sim]; [| |exact I].
  - destruct HD as (HL & -> & <-). destruct (wr_ok (obj + memb) new dm) as (m' & -> & HS & HP); [lia|].
    rewrite HL in *. exists m', tt. split; [reflexivity|]. split; [exact HS|]. exists new. split; [apply peek_iff; exact HP|reflexivity].
  - destruct HD as (HL & ->). destruct (wr_ok (obj + memb) new dm) as (m' & -> & HS & HP); [lia|].
    rewrite HL in *. exists m'. split; [reflexivity|exact HS].
Qed.

(* ---------------------------------------------------------------- storing one value *)
Definition mregion (d : mcoding K) : region :=
  (mh_ofs (mhd d), match h_multi (mh_h (mhd d)) with Some (mx, _) => mx * mh_pitch (mhd d) | None => msize d end).
Definition freg (d : mcoding K) : list region := if h_pres (mh_h (mhd d)) then [(mh_pofs (mhd d), 1)] else [].
Definition creg (d : mcoding K) : list region := match h_multi (mh_h (mhd d)) with Some _ => [(mh_cofs (mhd d), 4)] | None => [] end.
Lemma regions_eq d : regions d = mregion d :: freg d ++ creg d.
Proof. reflexivity. Qed.
Definition shift (obj : N) (rs : list region) : list region := map (fun r => (obj + fst r, snd r)) rs.
Lemma apart_shift obj r s : apart (obj + fst r, snd r) (obj + fst s, snd s) <-> apart r s.
Proof. unfold apart. cbn. lia. Qed.

Definition good (obj : N) (d : mcoding K) : Prop :=
  Forall (fun r => obj + fst r + snd r <= dsz) (regions d) /\ ForallOrdPairs apart (regions d) /\ laid d /\ pitched d.
Definition flag_a (obj : N) (d : mcoding K) : option N := if h_pres (mh_h (mhd d)) then Some (obj + mh_pofs (mhd d)) else None.
Definition count_a (obj : N) (d : mcoding K) : option N := match h_multi (mh_h (mhd d)) with Some _ => Some (obj + mh_cofs (mhd d)) | None => None end.

Lemma good_flag obj d : good obj d -> h_pres (mh_h (mhd d)) = true -> obj + mh_pofs (mhd d) + 1 <= dsz.
Proof. intros (H & _) E. unfold MemSpec.regions in H. rewrite E in H. apply Forall_inv_tail, Forall_inv in H. exact H. Qed.
Lemma good_count obj d p : good obj d -> h_multi (mh_h (mhd d)) = Some p -> obj + mh_cofs (mhd d) + 4 <= dsz.
Proof. intros (H & _) E. unfold MemSpec.regions in H. rewrite E in H. apply Forall_inv_tail, Forall_app in H as [_ H]. apply Forall_inv in H. exact H. Qed.
Lemma good_memb obj d : good obj d -> obj + fst (mregion d) + snd (mregion d) <= dsz.
Proof. intros (H & _). rewrite regions_eq in H. apply Forall_inv in H. exact H. Qed.

Lemma flag_p_ok obj d : good obj d -> flag_p dsz obj (mhd d) = Ok (flag_a obj d).
Proof.
  intros H. unfold flag_p, flag_a. destruct (h_pres (mh_h (mhd d))) eqn:E; [|reflexivity].
  pose proof (good_flag _ _ H E). rewrite membof_ok by lia. reflexivity.
Qed.
Lemma count_p_ok obj d : good obj d -> count_p dsz obj (mhd d) = Ok (count_a obj d).
Proof.
  intros H. unfold count_p, count_a. destruct (h_multi (mh_h (mhd d))) as [p|] eqn:E; [|reflexivity].
  pose proof (good_count _ _ _ H E). rewrite membof_ok by lia. reflexivity.
Qed.

Definition not_full (d : mcoding K) (s : slot V) : Prop :=
  match h_multi (mh_h (mhd d)) with Some (mx, _) => lenN s < mx | None => s = [] end.
Definition next_idx (d : mcoding K) (s : slot V) : N := match h_multi (mh_h (mhd d)) with Some _ => lenN s | None => 0 end.
Definition next_ofs (d : mcoding K) (s : slot V) : N := mh_ofs (mhd d) + next_idx d s * mh_pitch (mhd d).

Lemma next_in d s : pitched d -> not_full d s ->
  mh_ofs (mhd d) <= next_ofs d s /\ next_ofs d s + msize d <= mh_ofs (mhd d) + snd (mregion d).
Proof.
  unfold next_ofs, next_idx, mregion, not_full. intros Hp H. cbn [snd]. destruct (h_multi (mh_h (mhd d))) as [[mx q]|] eqn:E.
  - pose proof (elem_in d (lenN s) mx q Hp E H). lia.
  - lia.
Qed.
Lemma elem_ofs_eq obj d s : good obj d -> not_full d s -> elem_ofs (mhd d) (next_idx d s) = next_ofs d s.
Proof.
  intros HG HN. pose proof (good_memb _ _ HG) as HM. destruct HG as (_ & _ & HL & Hp). pose proof (next_in _ _ Hp HN) as [H1 H2].
  pose proof (laid_pos _ HL). unfold elem_ofs, next_ofs in *. cbn [fst mregion] in HM. rewrite (u32_small (_ * _)) by (unfold mregion in *; cbn [fst snd] in *; lia).
  apply u32_small. unfold mregion in *; cbn [fst snd] in *; lia.
Qed.

Lemma count_rd obj d dm s : slot_st d obj dm s -> match count_a obj d with Some a => rd_uint be a | None => ret 0 end dm = (dm, Ok (next_idx d s)).
Proof.
  intros [[_ H] _]. unfold count_a, next_idx. destruct (h_multi (mh_h (mhd d))) as [[mx q]|] eqn:E; [|reflexivity].
  destruct H as [(l & Hl & El) _]. apply peek_iff in Hl. unfold rd_uint, bindm, rd. rewrite Hl. cbv iota beta. unfold ret. rewrite El. reflexivity.
Qed.
Lemma flag_rd obj d dm s : slot_st d obj dm s -> match flag_a obj d with Some a => rd_bool a | None => ret false end dm
  = (dm, Ok (h_pres (mh_h (mhd d)) && nonempty s)).
Proof.
  intros [[H _] _]. unfold flag_a. destruct (h_pres (mh_h (mhd d))) eqn:E; [|reflexivity].
  destruct (H eq_refl) as (l & Hl & El). apply peek_iff in Hl. unfold rd_bool, bindm, rd. rewrite Hl. cbv iota beta. unfold ret. rewrite El. reflexivity.
Qed.

Lemma mul_step i j p z : i < j -> z <= p -> i * p + z <= j * p.
Proof. nia. Qed.
Lemma slot_st_push d obj dm dm1 dm3 s v : good obj d -> slot_st d obj dm s -> not_full d s ->
  same_but [(obj + next_ofs d s, msize d)] dm dm1 -> val_held false d (obj + next_ofs d s) dm1 v ->
  agree (obj + fst (mregion d)) (snd (mregion d)) dm1 dm3 ->
  (h_pres (mh_h (mhd d)) = true -> bytes_at (obj + mh_pofs (mhd d)) 1 dm3 (b2y true)) ->
  (h_multi (mh_h (mhd d)) <> None -> bytes_at (obj + mh_cofs (mhd d)) 4 dm3 (u2y be (lenN s + 1))) ->
  slot_st d obj dm3 (s ++ [v]).
Proof.
  intros HG HS HN H1 Hv H3 HF HC. pose proof HG as (_ & _ & HL & Hp). pose proof (good_memb _ _ HG) as HMM. pose proof (laid_pos _ HL) as Hpos.
  pose proof (next_in _ _ Hp HN) as [Hn1 Hn2].
  assert (Hv3 : val_held false d (obj + next_ofs d s) dm3 v).
  { eapply val_held_agree; [exact HL| |exact Hv]. apply (agree_sub _ _ _ _ _ _ H3); change (fst (mregion d)) with (mh_ofs (mhd d)); lia. }
  split; [split|].
  - intros E. exists (b2y true). split; [auto|]. rewrite y2b_b2y. destruct s; reflexivity.
  - unfold next_ofs, next_idx, not_full, mregion in *. destruct HS as [[_ HS] _]. destruct (h_multi (mh_h (mhd d))) as [[mx q]|] eqn:E.
    + destruct HS as [_ HS]. cbn [fst snd] in *. assert (Hpi : msize d <= mh_pitch (mhd d)) by (unfold pitched in Hp; rewrite E in Hp; exact Hp). split.
      * exists (u2y be (lenN s + 1)). split; [apply HC; discriminate|]. rewrite lenN_app. change (lenN [v]) with 1. apply y2u_u2y.
        assert (mx * 1 <= mx * mh_pitch (mhd d)); [|lia]. apply N.mul_le_mono_l. lia.
      * intros i w Hi Hm. destruct (Nat.lt_ge_cases i (length s)) as [Hlt|Hge].
        -- rewrite nth_error_app1 in Hi by exact Hlt. specialize (HS i w Hi Hm).
           eapply val_held_agree; [exact HL| |exact HS].
           assert (HE : mh_ofs (mhd d) + N.of_nat i * mh_pitch (mhd d) + msize d <= mh_ofs (mhd d) + lenN s * mh_pitch (mhd d)).
           { rewrite <- N.add_assoc. apply N.add_le_mono_l, mul_step; [unfold lenN; lia|exact Hpi]. }
           eapply agree_trans.
           ++ apply (same_agree _ _ _ _ _ H1). constructor; [|constructor]. unfold apart. cbn [fst snd]. lia.
           ++ apply (agree_sub _ _ _ _ _ _ H3); [lia|]. lia.
        -- rewrite nth_error_app2 in Hi by exact Hge. destruct (i - length s)%nat as [|[|]] eqn:Ei; try discriminate.
           injection Hi as <-. replace (N.of_nat i) with (lenN s) by (unfold lenN; lia). rewrite <- N.add_assoc. exact Hv3.
    + subst s. cbn [app]. replace (mh_ofs (mhd d)) with (mh_ofs (mhd d) + 0 * mh_pitch (mhd d)) by lia. exact Hv3.
  - unfold fresh_part. destruct HS as [_ HS]. unfold fresh_part, next_ofs, next_idx, not_full, mregion in *.
    destruct (h_multi (mh_h (mhd d))) as [[mx q]|] eqn:E; [|intros HX; destruct s; discriminate].
    destruct HS as [HS1 HS2]. rewrite lenN_app. change (lenN [v]) with 1. split; [lia|]. intros i Hi Hm.
    cbn [fst snd] in *. eapply zeroed_agree; [|exact (HS2 i ltac:(lia) Hm)].
    assert (HE : mh_ofs (mhd d) + lenN s * mh_pitch (mhd d) + msize d <= mh_ofs (mhd d) + i * mh_pitch (mhd d)).
    { rewrite <- N.add_assoc. apply N.add_le_mono_l, mul_step; [lia|]. unfold pitched in Hp. rewrite E in Hp. exact Hp. }
    pose proof (elem_in d i mx q Hp E Hm).
    eapply agree_trans.
    + apply (same_agree _ _ _ _ _ H1). constructor; [|constructor]. unfold apart. cbn [fst snd]. lia.
    + apply (agree_sub _ _ _ _ _ _ H3); [lia|]. lia.
Qed.

(* the updates of flag and count *)
Lemma apart_facts obj d : good obj d ->
  Forall (apart (mregion d)) (freg d) /\ Forall (apart (mregion d)) (creg d)
  /\ (forall r s, In r (freg d) -> In s (creg d) -> apart r s).
Proof.
  intros (_ & H & _). rewrite regions_eq in H. inversion_clear H as [|? ? H1 H2]. apply Forall_app in H1 as [H1a H1b].
  split; [exact H1a|]. split; [exact H1b|]. intros r s Hr Hs.
  unfold freg, creg in *. destruct (h_pres _), (h_multi _); cbn in *; try easy. destruct Hr as [<-|[]], Hs as [<-|[]].
  inversion_clear H2 as [|? ? H3 _]. apply Forall_inv in H3. exact H3.
Qed.
Lemma wr_flag obj d b dm : good obj d -> lenN dm = dsz -> exists dm',
  match flag_a obj d with Some a => wr a (b2y b) | None => ret tt end dm = (dm', Ok tt)
  /\ same_but (shift obj (freg d)) dm dm' /\ (h_pres (mh_h (mhd d)) = true -> bytes_at (obj + mh_pofs (mhd d)) 1 dm' (b2y b)).
Proof.
  intros HG HL. unfold flag_a, freg. destruct (h_pres (mh_h (mhd d))) eqn:E.
  - pose proof (good_flag _ _ HG E). destruct (wr_ok (obj + mh_pofs (mhd d)) (b2y b) dm) as (dm' & H1 & H2 & H3).
    { change (lenN (b2y b)) with 1. lia. }
    exists dm'. split; [exact H1|]. split; [exact H2|]. intros _. apply peek_iff, H3.
  - exists dm. split; [reflexivity|]. split; [apply same_refl|discriminate].
Qed.
Lemma wr_count obj d n dm : good obj d -> lenN dm = dsz -> n + 1 < 2 ^ 32 ->
  (forall p, h_multi (mh_h (mhd d)) = Some p -> exists l, peek (obj + mh_cofs (mhd d)) 4 dm = Ok l /\ y2u be l = n) -> exists dm',
  match count_a obj d with Some a => n <~ rd_uint be a ;; wr a (u2y be (u32 (n + 1))) | None => ret tt end dm = (dm', Ok tt)
  /\ same_but (shift obj (creg d)) dm dm' /\ (h_multi (mh_h (mhd d)) <> None -> bytes_at (obj + mh_cofs (mhd d)) 4 dm' (u2y be (n + 1))).
Proof.
  intros HG HL Hn Hp. unfold count_a, creg. destruct (h_multi (mh_h (mhd d))) as [p|] eqn:E.
  - destruct (Hp p eq_refl) as (l & Hl & El). pose proof (good_count _ _ _ HG E).
    unfold rd_uint, bindm, rd. rewrite Hl. cbv iota beta. unfold ret. rewrite El, u32_small by exact Hn.
    destruct (wr_ok (obj + mh_cofs (mhd d)) (u2y be (n + 1)) dm) as (dm' & H1 & H2 & H3).
    { rewrite u2y_len. lia. }
    rewrite u2y_len in H2, H3. exists dm'. split; [exact H1|]. split; [exact H2|]. intros _. apply peek_iff, H3.
  - exists dm. split; [reflexivity|]. split; [apply same_refl|easy].
Qed.

Lemma not_full_small obj d s : good obj d -> not_full d s -> next_idx d s + 1 < 2 ^ 32.
Proof.
  intros HG HN. pose proof (good_memb _ _ HG) as HM. destruct HG as (_ & _ & HL & Hp). pose proof (laid_pos _ HL).
  unfold next_idx, not_full, mregion, pitched in *. destruct (h_multi (mh_h (mhd d))) as [[mx q]|]; cbn [fst snd] in *; [|lia].
  assert (mx * 1 <= mx * mh_pitch (mhd d)); [apply N.mul_le_mono_l; lia|lia].
Qed.
Lemma shift_sub obj d (rs : list region) m m' : same_but (shift obj rs) m m' -> incl rs (regions d) -> same_but (shift obj (regions d)) m m'.
Proof.
  intros H Hi. apply (same_mono _ _ _ _ H). intros b k. unfold shift. rewrite !Forall_map, !Forall_forall. auto.
Qed.

(* member d of the struct at obj holds s; a further value was stored; flag and count are updated *)
Section Store.
Variables (obj : N) (d : mcoding K) (s : slot V) (v : val V) (dm dm1 : list N).
Hypothesis HG : good obj d.
Hypothesis HL : lenN dm = dsz.
Hypothesis HS : slot_st d obj dm s.
Hypothesis HN : not_full d s.
Hypothesis H1 : same_but [(obj + next_ofs d s, msize d)] dm dm1.
Hypothesis Hv : val_held false d (obj + next_ofs d s) dm1 v.

Lemma store_regs : same_but (shift obj (regions d)) dm dm1.
Proof.
  apply (same_mono _ _ _ _ H1). intros b k H. rewrite regions_eq in H. apply Forall_inv in H. constructor; [|constructor].
  pose proof HG as (_ & _ & _ & Hp). pose proof (next_in _ _ Hp HN). unfold apart in *. cbn [fst snd] in *. change (fst (mregion d)) with (mh_ofs (mhd d)) in *. lia.
Qed.
Lemma store_away r : apart (mregion d) r -> agree (obj + fst r) (snd r) dm dm1.
Proof.
  intros H. apply (same_agree _ _ _ _ _ H1). constructor; [|constructor]. pose proof HG as (_ & _ & _ & Hp). pose proof (next_in _ _ Hp HN).
  unfold apart in *. cbn [fst snd] in *. change (fst (mregion d)) with (mh_ofs (mhd d)) in *. lia.
Qed.
Lemma store_count dmx : (forall r, In r (creg d) -> agree (obj + fst r) (snd r) dm dmx) ->
  forall p, h_multi (mh_h (mhd d)) = Some p -> exists l, peek (obj + mh_cofs (mhd d)) 4 dmx = Ok l /\ y2u be l = next_idx d s.
Proof.
  intros HA [mx q] E. destruct HS as [[_ HS1] _]. unfold creg, next_idx in *. rewrite E in *. destruct HS1 as [(l & Hl & El) _].
  exists l. split; [|exact El]. apply peek_iff in Hl. rewrite <- Hl. apply (HA _ (or_introl eq_refl)); cbn [fst snd]; lia.
Qed.

Lemma flag_then_count : exists dm2 dm3,
  match flag_a obj d with Some a => wr a (b2y true) | None => ret tt end dm1 = (dm2, Ok tt)
  /\ match count_a obj d with Some a => n <~ rd_uint be a ;; wr a (u2y be (u32 (n + 1))) | None => ret tt end dm2 = (dm3, Ok tt)
  /\ slot_st d obj dm3 (s ++ [v]) /\ same_but (shift obj (regions d)) dm dm3.
Proof.
  destruct (apart_facts _ _ HG) as (A1 & A2 & A3). rewrite Forall_forall in A1, A2.
  assert (HL1 : lenN dm1 = dsz) by (destruct H1; lia).
  destruct (wr_flag obj d true dm1 HG HL1) as (dm2 & E2 & S2 & F2).
  assert (HL2 : lenN dm2 = dsz) by (destruct S2; lia).
  assert (C2 : forall r, In r (creg d) -> agree (obj + fst r) (snd r) dm1 dm2).
  { intros r Hr. apply (same_agree _ _ _ _ _ S2). unfold shift. apply Forall_map, Forall_forall. intros f Hf.
    apply apart_shift, apart_sym, A3; assumption. }
  destruct (wr_count obj d (next_idx d s) dm2 HG HL2 (not_full_small _ _ _ HG HN)) as (dm3 & E3 & S3 & F3).
  { apply store_count. intros r Hr. eapply agree_trans; [apply store_away, A2, Hr|apply C2, Hr]. }
  exists dm2, dm3. split; [exact E2|]. split; [exact E3|]. split.
  - apply (slot_st_push d obj dm dm1 dm3 s v HG HS HN H1 Hv).
    + eapply agree_trans; [apply (same_agree _ _ _ _ _ S2)|apply (same_agree _ _ _ _ _ S3)]; unfold shift; apply Forall_map, Forall_forall;
        intros r Hr; apply apart_shift; auto.
    + intros E. eapply bytes_agree; [|exact (F2 E)]. apply (same_agree _ _ _ _ _ S3). unfold shift. apply Forall_map, Forall_forall. intros r Hr.
      apply (apart_shift obj (mh_pofs (mhd d), 1)). apply A3; [|exact Hr]. unfold freg. rewrite E. left. reflexivity.
    + intros E. specialize (F3 E). unfold next_idx in F3. destruct (h_multi (mh_h (mhd d))); [exact F3|easy].
  - eapply same_trans; [exact store_regs|]. eapply same_trans; [eapply shift_sub; [exact S2|]|eapply shift_sub; [exact S3|]];
      rewrite regions_eq; intros r Hr; right; apply in_or_app; auto.
Qed.
Lemma count_then_flag : exists dm2 dm3,
  match count_a obj d with Some a => n <~ rd_uint be a ;; wr a (u2y be (u32 (n + 1))) | None => ret tt end dm1 = (dm2, Ok tt)
  /\ match flag_a obj d with Some a => wr a (b2y true) | None => ret tt end dm2 = (dm3, Ok tt)
  /\ slot_st d obj dm3 (s ++ [v]) /\ same_but (shift obj (regions d)) dm dm3.
Proof.
  destruct (apart_facts _ _ HG) as (A1 & A2 & A3). rewrite Forall_forall in A1, A2.
  assert (HL1 : lenN dm1 = dsz) by (destruct H1; lia).
  destruct (wr_count obj d (next_idx d s) dm1 HG HL1 (not_full_small _ _ _ HG HN)) as (dm2 & E2 & S2 & F2).
  { apply store_count. intros r Hr. apply store_away, A2, Hr. }
  assert (HL2 : lenN dm2 = dsz) by (destruct S2; lia).
  destruct (wr_flag obj d true dm2 HG HL2) as (dm3 & E3 & S3 & F3).
  exists dm2, dm3. split; [exact E2|]. split; [exact E3|]. split.
  - apply (slot_st_push d obj dm dm1 dm3 s v HG HS HN H1 Hv).
    + eapply agree_trans; [apply (same_agree _ _ _ _ _ S2)|apply (same_agree _ _ _ _ _ S3)]; unfold shift; apply Forall_map, Forall_forall;
        intros r Hr; apply apart_shift; auto.
    + exact F3.
    + intros E. specialize (F2 E). eapply bytes_agree; [apply (same_agree _ _ _ _ _ S3)|].
      * unfold shift. apply Forall_map, Forall_forall. intros r Hr.
        apply (apart_shift obj (mh_cofs (mhd d), 4)). apply apart_sym, A3; [exact Hr|]. unfold creg. destruct (h_multi (mh_h (mhd d))); [left; reflexivity|easy].
      * unfold next_idx in F2. destruct (h_multi (mh_h (mhd d))); [exact F2|easy].
  - eapply same_trans; [exact store_regs|]. eapply same_trans; [eapply shift_sub; [exact S2|]|eapply shift_sub; [exact S3|]];
      rewrite regions_eq; intros r Hr; right; apply in_or_app; auto.
Qed.
End Store.

Definition apart2 (d e : mcoding K) : Prop := Forall (fun r => Forall (apart r) (regions e)) (regions d).
Lemma apart2_sym d e : apart2 d e -> apart2 e d.
Proof.
  unfold apart2. rewrite !Forall_forall. intros H r Hr. apply Forall_forall. intros q Hq. specialize (H q Hq). rewrite Forall_forall in H.
  apply apart_sym, H, Hr.
Qed.
Lemma other_st obj d e dm dm' s : apart2 d e -> laid e -> pitched e -> same_but (shift obj (regions d)) dm dm' ->
  slot_st e obj dm s -> slot_st e obj dm' s.
Proof.
  intros HA HL Hp HS. apply slot_st_agree; [exact HL|exact Hp|]. unfold regs_agree. apply Forall_forall. intros r Hr.
  apply (same_agree _ _ _ _ _ HS). unfold shift. apply Forall_map, Forall_forall. intros q Hq.
  change (apart (obj + fst r, snd r) (obj + fst q, snd q)). apply apart_shift, apart_sym.
  unfold apart2 in HA. rewrite Forall_forall in HA. specialize (HA q Hq). rewrite Forall_forall in HA. apply HA, Hr.
Qed.

(* ---------------------------------------------------------------- unordered *)
(* the search of place(), as a function of its own *)
Fixpoint sfind (ies : list (mcoding K)) (idx allowed : N) (slots : list (slot V)) (ti : tag_inst) : res (option nat * N) :=
  match ies, slots with
  | d :: ies', s :: slots' =>
    let h := mh_h (mhd d) in
    let next a := r <- sfind ies' (idx + 1) a slots' ti ;; Ok (option_map S (fst r), snd r) in
    if negb (ti_match (h_ti h) ti) then next allowed
    else
      let allowed' := allowed + match h_multi h with Some (mx, _) => mx | None => 1 end in
      if (h_pres h && nonempty s) || match h_multi h with Some (mx, _) => mx <=? lenN s | None => false end then next allowed'
      else
        let plain := negb (h_pres h) && match h_multi h with Some _ => false | None => true end in
        if plain && (seen_max <=? idx) then Err ENOTSUP
        else if plain && nonempty s then next allowed'
        else Ok (Some O, allowed')
  | _, _ => Ok (None, allowed)
  end.
Definition upd {A} (l : list A) (k : nat) (x : A) : list A := firstn k l ++ x :: skipn (S k) l.

Notation entry_of' d := (mkEntry (head (erase d)) (dec_coding (erase d))).
Lemma place_sfind c ti m len : forall ies idx allowed slots, length slots = length ies ->
  place c (map (fun d => entry_of' d) ies) idx allowed slots ti m len =
  r <- sfind ies idx allowed slots ti ;;
  match fst r with
  | None => if snd r =? 0 then Ok slots else Err ENOTSUP
  | Some k =>
    match nth_error ies k, nth_error slots k with
    | Some d, Some s =>
      v <- dec_coding (erase d) c false m len ;;
      if seen_max <=? idx + N.of_nat k then Err ENOTSUP else Ok (upd slots k (s ++ [v]))
    | _, _ => UB AssertFail
    end
  end.
Proof.
  induction ies as [|d ies IH]; intros idx allowed [|s slots] HL; try discriminate.
  - cbn. reflexivity.
  - cbn [map place sfind]. cbv zeta. cbn [e_h e_dec]. rewrite head_erase.
    assert (HN : forall a, (r <- place c (map (fun d => entry_of' d) ies) (idx + 1) a slots ti m len ;; Ok (s :: r)) =
      (r0 <- (r <- sfind ies (idx + 1) a slots ti ;; Ok (option_map S (fst r), snd r)) ;;
       match fst r0 with
       | Some k =>
         match nth_error (d :: ies) k with
         | Some d0 => match nth_error (s :: slots) k with
           | Some s0 => v <- dec_coding (erase d0) c false m len ;; (if seen_max <=? idx + N.of_nat k then Err ENOTSUP else Ok (upd (s :: slots) k (s0 ++ [v])))
           | None => UB AssertFail end
         | None => UB AssertFail
         end
       | None => if snd r0 =? 0 then Ok (s :: slots) else Err ENOTSUP
       end)).
    { intros a. rewrite IH by (cbn in HL; lia). destruct (sfind ies (idx + 1) a slots ti) as [[[k|] n]|e|u]; cbn [bind fst snd option_map]; try reflexivity.
      - cbn [nth_error]. destruct (nth_error ies k) as [d0|]; [|reflexivity]. destruct (nth_error slots k) as [s0|]; [|reflexivity].
        destruct (dec_coding (erase d0) c false m len) as [v|e|u]; cbn [bind]; [|reflexivity|reflexivity].
        replace (idx + N.of_nat (S k)) with (idx + 1 + N.of_nat k) by lia. destruct (seen_max <=? idx + 1 + N.of_nat k); reflexivity.
      - destruct (n =? 0); reflexivity. }
    dif E1; [apply HN|]. dif E2; [apply HN|]. dif E3; [reflexivity|]. dif E4; [apply HN|].
    cbn [bind fst snd nth_error]. rewrite N.add_0_r. destruct (dec_coding (erase d) c false m len); reflexivity.
Qed.

Definition plain (d : mcoding K) : bool := negb (h_pres (mh_h (mhd d))) && match h_multi (mh_h (mhd d)) with Some _ => false | None => true end.
(* all members from table index idx on are in the state given by the slots *)
Definition states (obj idx : N) (ies : list (mcoding K)) (slots : list (slot V)) (seen : N -> bool) (dm : list N) : Prop :=
  length slots = length ies /\
  forall i d s, nth_error ies i = Some d -> nth_error slots i = Some s ->
    slot_st d obj dm s /\ (plain d = true -> seen (idx + N.of_nat i) = nonempty s).

Definition caps (ies : list (mcoding K)) : N := fold_right (fun d acc => cmax (mhd d) + acc) 0 ies.

Lemma cmax_eq (d : mcoding K) : cmax (mhd d) = match h_multi (mh_h (mhd d)) with Some (mx, _) => mx | None => 1 end.
Proof. reflexivity. Qed.
Definition mentry_of' (d : mcoding K) := mkMEntry (mhd d) (mdec_coding d).

Lemma mfind_sfind obj ti dm seen : forall ies idx allowed slots, Forall (good obj) ies -> states obj idx ies slots seen dm ->
  allowed + caps ies < 2 ^ 32 ->
  mfind be dsz obj (map mentry_of' ies) idx allowed seen ti dm =
  (dm, r <- sfind ies idx allowed slots ti ;;
       match fst r with
       | None => Ok (None, snd r)
       | Some k => match nth_error ies k with Some d => Ok (Some (mentry_of' d, idx + N.of_nat k), snd r) | None => UB AssertFail end
       end).
Proof.
  induction ies as [|d ies IH]; intros idx allowed [|s slots] HG [HL HS] HC; try discriminate.
  - reflexivity.
  - cbn [map mfind sfind]. cbv zeta. cbn [me_h mentry_of']. inversion_clear HG as [|? ? HGd HGr].
    assert (HSr : states obj (idx + 1) ies slots seen dm).
    { split; [cbn in HL; lia|]. intros i d' s' Hi Hs. destruct (HS (S i) d' s' Hi Hs) as [A B]. split; [exact A|].
      intros Hp. specialize (B Hp). replace (idx + 1 + N.of_nat i) with (idx + N.of_nat (S i)) by lia. exact B. }
    destruct (HS O d s eq_refl eq_refl) as [HSd Hseen]. rewrite N.add_0_r in Hseen.
    cbn [caps fold_right] in HC. fold (caps ies) in HC.
    assert (HN : forall a, a + caps ies < 2 ^ 32 -> mfind be dsz obj (map mentry_of' ies) (idx + 1) a seen ti dm =
      (dm, r0 <- (r <- sfind ies (idx + 1) a slots ti ;; Ok (option_map S (fst r), snd r)) ;;
        match fst r0 with
        | Some k => match nth_error (d :: ies) k with Some d0 => Ok (Some (mentry_of' d0, idx + N.of_nat k), snd r0) | None => UB AssertFail end
        | None => Ok (None, snd r0)
        end)).
    { intros a Ha. rewrite (IH _ _ _ HGr HSr Ha). f_equal. destruct (sfind ies (idx + 1) a slots ti) as [[[k|] n]|e|u]; cbn [bind fst snd option_map]; try reflexivity.
      cbn [nth_error]. destruct (nth_error ies k); [|reflexivity]. do 4 f_equal. lia. }
    destruct (ti_match (h_ti (mh_h (mhd d))) ti); cbn [negb]; [|apply HN; lia].
    unfold bindm at 1. unfold lift at 1. rewrite flag_p_ok by exact HGd. cbv iota beta.
    unfold bindm at 1. unfold lift at 1. rewrite count_p_ok by exact HGd. cbv iota beta.
    unfold bindm at 1. rewrite (flag_rd _ _ _ _ HSd). cbv iota beta.
    rewrite u32_small by lia. rewrite cmax_eq in *.
    assert (HCnt : (if h_pres (mh_h (mhd d)) && nonempty s then ret true
       else match count_a obj d with Some a => c <~ rd_uint be a ;; ret (match h_multi (mh_h (mhd d)) with Some (mx, _) => mx | None => 1 end <=? c) | None => ret false end) dm
       = (dm, Ok ((h_pres (mh_h (mhd d)) && nonempty s) || match h_multi (mh_h (mhd d)) with Some (mx, _) => mx <=? lenN s | None => false end))).
    { destruct (h_pres (mh_h (mhd d)) && nonempty s); [reflexivity|]. cbn [orb]. pose proof (count_rd _ _ _ _ HSd) as HR.
      unfold count_a, next_idx in *. destruct (h_multi (mh_h (mhd d))) as [[mx q]|]; [|reflexivity]. unfold bindm. rewrite HR. reflexivity. }
    unfold bindm at 1. rewrite HCnt. cbv iota beta. clear HCnt.
    dif E2; [apply HN; lia|].
    unfold flag_a, count_a, plain in *. destruct (h_pres (mh_h (mhd d))) eqn:Ep; cbn [negb andb orb] in *.
    + cbn [negb andb bind fst snd nth_error option_map]. change (N.of_nat 0) with 0. rewrite N.add_0_r. reflexivity.
    + destruct (h_multi (mh_h (mhd d))) as [[mx q]|] eqn:Em.
      * cbn [negb andb bind fst snd nth_error option_map]. change (N.of_nat 0) with 0. rewrite N.add_0_r. reflexivity.
      * cbn [negb andb]. dif E3; [reflexivity|]. rewrite (Hseen eq_refl). destruct (nonempty s); [apply HN; lia|].
        cbn [negb andb bind fst snd nth_error option_map]. change (N.of_nat 0) with 0. rewrite N.add_0_r. reflexivity.
Qed.

Lemma sfind_some ti obj dm seen : forall ies idx allowed slots k al, states obj idx ies slots seen dm ->
  sfind ies idx allowed slots ti = Ok (Some k, al) ->
  exists d s, nth_error ies k = Some d /\ nth_error slots k = Some s /\ not_full d s.
Proof.
  induction ies as [|d ies IH]; intros idx allowed [|s slots] k al [HL HS] H; try discriminate.
  cbn [sfind] in H. cbv zeta in H.
  assert (HSr : states obj (idx + 1) ies slots seen dm).
  { split; [cbn in HL; lia|]. intros i d' s' Hi Hs. destruct (HS (S i) d' s' Hi Hs) as [A B]. split; [exact A|].
    intros Hp. specialize (B Hp). replace (idx + 1 + N.of_nat i) with (idx + N.of_nat (S i)) by lia. exact B. }
  assert (HN : forall a, (r <- sfind ies (idx + 1) a slots ti;; Ok (option_map S (fst r), snd r)) = Ok (Some k, al) ->
    exists d0 s0, nth_error (d :: ies) k = Some d0 /\ nth_error (s :: slots) k = Some s0 /\ not_full d0 s0).
  { intros a Ha. destruct (sfind ies (idx + 1) a slots ti) as [[[k'|] n]|e|u] eqn:E; cbn [bind fst snd option_map] in Ha; try discriminate.
    injection Ha as <- <-. exact (IH _ _ _ _ _ HSr E). }
  dif_in H E1; [exact (HN _ H)|]. dif_in H E2; [exact (HN _ H)|]. dif_in H E3; [discriminate|]. dif_in H E4; [exact (HN _ H)|].
  injection H as <- <-. exists d, s. split; [reflexivity|]. split; [reflexivity|].
  destruct (HS O d s eq_refl eq_refl) as [[[_ HSd] _] _].
  unfold not_full. destruct (h_multi (mh_h (mhd d))) as [[mx q]|]; [lia|].
  destruct s as [|v s]; [reflexivity|]. cbn [nonempty] in *. destruct (h_pres (mh_h (mhd d))); discriminate.
Qed.

Lemma upd_length {A} (l : list A) k x : (k < length l)%nat -> length (upd l k x) = length l.
Proof. intros H. unfold upd. rewrite app_length, firstn_length. cbn [length]. rewrite skipn_length. lia. Qed.
Lemma nth_upd {A} (l : list A) k x i : (k < length l)%nat -> nth_error (upd l k x) i = if Nat.eqb i k then Some x else nth_error l i.
Proof.
  intros H. unfold upd. destruct (Nat.eqb_spec i k) as [->|Hne].
  - rewrite nth_error_app2 by (rewrite firstn_length; lia). rewrite firstn_length. replace (k - Nat.min k (length l))%nat with O by lia. reflexivity.
  - destruct (Nat.lt_ge_cases i k) as [Hlt|Hge].
    + rewrite nth_error_app1 by (rewrite firstn_length; lia). rewrite <- (firstn_skipn k l) at 2. rewrite nth_error_app1 by (rewrite firstn_length; lia). reflexivity.
    + rewrite nth_error_app2 by (rewrite firstn_length; lia). rewrite firstn_length. replace (i - Nat.min k (length l))%nat with (S (i - S k)) by lia.
      cbn [nth_error]. rewrite <- (firstn_skipn (S k) l) at 2. rewrite nth_error_app2 by (rewrite firstn_length; lia). f_equal. rewrite firstn_length. lia.
Qed.
Lemma pairs_nth {A} (R : A -> A -> Prop) (Rs : forall x y, R x y -> R y x) (l : list A) : ForallOrdPairs R l -> forall i j x y, i <> j ->
  nth_error l i = Some x -> nth_error l j = Some y -> R x y.
Proof.
  induction 1 as [|a l H1 H2 IH]; intros [|i] [|j] x y Hij Hx Hy; try discriminate; try easy.
  - injection Hx as <-. rewrite Forall_forall in H1. apply H1. eapply nth_error_In; exact Hy.
  - injection Hy as <-. apply Rs. rewrite Forall_forall in H1. apply H1. eapply nth_error_In; exact Hx.
  - eapply IH; [|exact Hx|exact Hy]. lia.
Qed.

Definition allregs (obj : N) (ies : list (mcoding K)) : list region := shift obj (flat_map regions ies).
Lemma allregs_of obj d ies m m' : In d ies -> same_but (shift obj (regions d)) m m' -> same_but (allregs obj ies) m m'.
Proof.
  intros Hd H. apply (same_mono _ _ _ _ H). intros b k. unfold allregs, shift. rewrite !Forall_map, !Forall_forall. intros HA r Hr.
  apply HA. apply in_flat_map. exists d. auto.
Qed.
Lemma fresh_zeroed obj d dm s : slot_st d obj dm s -> not_full d s -> zeroed (obj + next_ofs d s) (msize d) dm.
Proof.
  intros [_ H] HN. unfold fresh_part, not_full, next_ofs, next_idx in *. destruct (h_multi (mh_h (mhd d))) as [[mx q]|].
  - destruct H as [_ H]. rewrite N.add_assoc. apply H; lia.
  - replace (obj + (mh_ofs (mhd d) + 0 * mh_pitch (mhd d))) with (obj + mh_ofs (mhd d)) by lia. auto.
Qed.

Definition struct_good (obj : N) (ies : list (mcoding K)) : Prop :=
  Forall (good obj) ies /\ ForallOrdPairs apart2 ies /\ caps ies < 2 ^ 32.

Lemma mplace_sim c obj ies slots seen ti m len dm : bytes_ok m -> Forall entry_sim ies -> struct_good obj ies -> lenN dm = dsz ->
  states obj 0 ies slots seen dm ->
  sim (allregs obj ies) dm (mplace be dsz c obj (map mentry_of' ies) seen ti m len dm)
    (place c (map (fun d => entry_of' d) ies) 0 0 slots ti m len)
    (fun dm' seen' slots' => states obj 0 ies slots' seen' dm').
Proof.
  intros Hb HE (HG & HA & HC) HL HS. rewrite place_sfind by apply HS. unfold mplace.
  unfold bindm at 1. rewrite (mfind_sfind obj ti dm seen ies 0 0 slots HG HS) by lia.
  destruct (sfind ies 0 0 slots ti) as [[[k|] al]|e|u] eqn:EF; cbn [bind fst snd].
  2: { destruct (al =? 0).
       - exists dm, seen. split; [reflexivity|]. split; [apply same_refl|exact HS].
       - exists dm. split; [reflexivity|apply same_refl]. }
  2: { exists dm. split; [reflexivity|apply same_refl]. }
  2: { exact I. }
  destruct (sfind_some _ _ _ _ _ _ _ _ _ _ HS EF) as (d & s & Hd & Hs & HN). rewrite Hd, Hs.
  destruct HS as [HSl HS]. pose proof (HS k d s Hd Hs) as [HSd _].
  assert (Hind : In d ies) by (eapply nth_error_In; exact Hd).
  rewrite Forall_forall in HE, HG. pose proof (HG d Hind) as HGd.
  cbn [fst snd me_h me_dec mentry_of'].
  unfold bindm at 1. unfold lift at 1. rewrite flag_p_ok by exact HGd. cbv iota beta.
  unfold bindm at 1. unfold lift at 1. rewrite count_p_ok by exact HGd. cbv iota beta.
  unfold bindm at 1. rewrite (count_rd _ _ _ _ HSd). cbv iota beta. rewrite (elem_ofs_eq obj) by assumption.
  assert (Hin : obj + next_ofs d s + msize d <= dsz).
  { pose proof HGd as (_ & _ & _ & Hp). pose proof (next_in _ _ Hp HN). pose proof (good_memb _ _ HGd).
    change (fst (mregion d)) with (mh_ofs (mhd d)) in *. lia. }
  pose proof (HE d Hind c false obj (next_ofs d s) m len dm HL Hin Hb (fresh_zeroed _ _ _ _ HSd HN)) as HD.
  unfold bindm at 1. destruct (dec_coding (erase d) c false m len) as [v|e|u]; cbn [sim] in HD; cbn [bind]; [| |exact I].
  - destruct HD as (dm1 & [] & -> & H1 & Hv).
    destruct (count_then_flag obj d s v dm dm1 HGd HL HSd HN H1 Hv) as (dm2 & dm3 & E2 & E3 & HSt & HB).
    unfold bindm at 1. rewrite E2. unfold bindm at 1. rewrite E3.
    rewrite N.add_0_l. dif E4.
    + exists dm3. split; [reflexivity|]. eapply allregs_of; eassumption.
    + exists dm3, (fun x => (x =? N.of_nat k) || seen x). split; [reflexivity|]. split; [eapply allregs_of; eassumption|].
      assert (Hk : (k < length slots)%nat) by (apply nth_error_Some; rewrite Hs; discriminate).
      split; [rewrite upd_length by exact Hk; exact HSl|]. intros i e t Hi Ht. rewrite nth_upd in Ht by exact Hk.
      destruct (Nat.eqb_spec i k) as [->|Hne].
      * rewrite Hd in Hi. injection Hi as <-. injection Ht as <-. split; [exact HSt|]. intros _. rewrite N.add_0_l, N.eqb_refl. destruct s; reflexivity.
      * destruct (HS i e t Hi Ht) as [HSe Hse]. split.
        -- assert (Hine : In e ies) by (eapply nth_error_In; exact Hi). pose proof (HG e Hine) as (_ & _ & HLe & Hpe).
           eapply other_st; [|exact HLe|exact Hpe|exact HB|exact HSe].
           apply (pairs_nth apart2 apart2_sym ies HA k i); auto.
        -- intros Hp. rewrite (Hse Hp). rewrite N.add_0_l in *. destruct (N.eqb_spec (N.of_nat i) (N.of_nat k)); [lia|]. cbn [orb].
           rewrite <- (Hse Hp). reflexivity.
  - destruct HD as (dm1 & -> & H1). exists dm1. split; [reflexivity|]. eapply allregs_of; [exact Hind|].
    eapply store_regs; eassumption.
Qed.

Lemma sim_bind {A B C D} rs m (x : mm A) (y : res B) (R : list N -> A -> B -> Prop) (f : A -> mm C) (g : B -> res D) Q :
  sim rs m (x m) y R -> (forall m' a b, same_but rs m m' -> R m' a b -> sim rs m' (f a m') (g b) Q) -> sim rs m (bindm x f m) (bind y g) Q.
Proof.
  intros H1 H2. unfold bindm. destruct y as [b|e|u]; cbn [sim bind] in *; [| |exact I].
  - destruct H1 as (m' & a & -> & HS & HR). specialize (H2 m' a b HS HR). destruct (g b) as [z|e|u]; cbn [sim] in *; [| |exact I].
    + destruct H2 as (m'' & z' & E & HS' & HQ). exists m'', z'. split; [exact E|]. split; [eapply same_trans; eassumption|exact HQ].
    + destruct H2 as (m'' & E & HS'). exists m''. split; [exact E|]. eapply same_trans; eassumption.
  - destruct H1 as (m' & -> & HS). exists m'. split; [reflexivity|exact HS].
Qed.
Lemma sim_impl {A B} rs m x (y : res B) (R R' : list N -> A -> B -> Prop) :
  sim rs m x y R -> (forall m' a b, same_but rs m m' -> R m' a b -> R' m' a b) -> sim rs m x y R'.
Proof.
  intros H HR. destruct y; cbn [sim] in *; auto. destruct H as (m' & z & E & HS & Hz). exists m', z. auto.
Qed.
Lemma same_len rs m m' : same_but rs m m' -> lenN m = dsz -> lenN m' = dsz.
Proof. intros [H _]. lia. Qed.

Lemma load_next_mem c g : ld_mem (fst (load_next c g)) = ld_mem g.
Proof.
  unfold load_next. destruct (next_tl_valid c g) as [[a b]|e|u]; try reflexivity. destruct (b =? 0); [reflexivity|].
  destruct (cfg_load c (dropN a (ld_mem g)) b) as [[[ti len] h]|e|u]; try reflexivity. cbv zeta. destruct (_ <? _); reflexivity.
Qed.
Lemma by_tag_mem c g ti : ld_mem (fst (load_next_by_tag_inst c g ti)) = ld_mem g.
Proof.
  unfold load_next_by_tag_inst. assert (H : forall fuel g0 g1, by_tag_loop fuel c g0 ti = Ok g1 -> ld_mem g1 = ld_mem g0).
  { induction fuel as [|fuel IH]; intros g0 g1 H; [discriminate|]. cbn [by_tag_loop] in H. pose proof (load_next_mem c g0) as HM.
    destruct (load_next c g0) as [g' [x|e|u]]; try discriminate. cbn [fst] in HM. destruct (ld_val g'); [|discriminate].
    destruct (ti_match (ld_ti g') ti); [injection H as <-; exact HM|]. rewrite <- HM. exact (IH _ _ H). }
  destruct (by_tag_loop _ c g ti) eqn:E; try reflexivity. exact (H _ _ _ E).
Qed.
Lemma munord_sim c obj ies : Forall entry_sim ies -> struct_good obj ies -> forall fuel g slots seen dm, bytes_ok (ld_mem g) -> lenN dm = dsz ->
  states obj 0 ies slots seen dm ->
  sim (allregs obj ies) dm (munord_loop be dsz fuel c obj (map mentry_of' ies) g seen dm)
    (unord_loop fuel c (map (fun d => entry_of' d) ies) g slots)
    (fun dm' seen' slots' => lenN dm' = dsz /\ states obj 0 ies slots' seen' dm').
Proof.
  intros HE HG. induction fuel as [|fuel IH]; intros g slots seen dm Hb HL HS; cbn [munord_loop unord_loop]; [exact I|].
  pose proof (load_next_mem c g) as HM. destruct (load_next c g) as [g' [x|e|u]]; [| |exact I].
  - destruct (ld_val g') as [v|].
    + cbn [fst] in HM. rewrite <- HM in Hb. eapply sim_bind; [apply mplace_sim; try assumption; apply bytes_ok_dropN; exact Hb|]. intros m' seen' slots' HB HS'. apply IH; [exact Hb|eapply same_len; eassumption|exact HS'].
    + exists dm, seen. split; [reflexivity|]. split; [apply same_refl|auto].
  - exists dm. split; [reflexivity|apply same_refl].
Qed.
Lemma mcheck_sim obj dm seen : forall ies idx slots, Forall (good obj) ies -> states obj idx ies slots seen dm ->
  mcheck_mand be dsz obj idx (map mentry_of' ies) seen dm = (dm, check_mand idx (map (fun d => entry_of' d) ies) slots).
Proof.
  induction ies as [|d ies IH]; intros idx [|s slots] HG [HL HS]; try discriminate; [reflexivity|].
  cbn [map mcheck_mand check_mand]. cbv zeta. cbn [me_h mentry_of' e_h]. rewrite head_erase. inversion_clear HG as [|? ? HGd HGr].
  assert (HSr : states obj (idx + 1) ies slots seen dm).
  { split; [cbn in HL; lia|]. intros i d' s' Hi Hs. destruct (HS (S i) d' s' Hi Hs) as [A B]. split; [exact A|].
    intros Hp. specialize (B Hp). replace (idx + 1 + N.of_nat i) with (idx + N.of_nat (S i)) by lia. exact B. }
  destruct (HS O d s eq_refl eq_refl) as [HSd Hseen]. rewrite N.add_0_r in Hseen. unfold plain in Hseen.
  destruct (h_pres (mh_h (mhd d))) eqn:Ep; [apply (IH _ _ HGr HSr)|].
  pose proof (count_rd _ _ _ _ HSd) as HR. unfold count_a, next_idx in HR.
  destruct (h_multi (mh_h (mhd d))) as [[mx q]|] eqn:Em.
  - pose proof (good_count _ _ _ HGd Em). unfold bindm at 1. unfold lift at 1. rewrite membof_ok by lia. cbv iota beta.
    unfold bindm at 1. rewrite HR. cbv iota beta. destruct (lenN s <? q); [reflexivity|apply (IH _ _ HGr HSr)].
  - destruct (seen_max <=? idx); [reflexivity|]. rewrite (Hseen eq_refl). destruct (nonempty s); [apply (IH _ _ HGr HSr)|reflexivity].
Qed.

Lemma states_held obj ies slots seen dm : states obj 0 ies slots seen dm -> struct_held false ies obj dm slots.
Proof.
  intros [HL HS]. unfold MemSpec.struct_held. revert slots HL HS. generalize 0. induction ies as [|d ies IH]; intros idx [|s slots] HL HS; try discriminate; constructor.
  - apply (HS O d s eq_refl eq_refl).
  - apply (IH (idx + 1)); [cbn in HL; lia|]. intros i d' s' Hi Hs. destruct (HS (S i) d' s' Hi Hs) as [A B]. split; [exact A|].
    intros Hp. specialize (B Hp). replace (idx + 1 + N.of_nat i) with (idx + N.of_nat (S i)) by lia. exact B.
Qed.

Lemma unordered_sim c obj ies m len dm : bytes_ok m -> Forall entry_sim ies -> struct_good obj ies -> lenN dm = dsz -> obj < dsz ->
  Forall (fun d => slot_st d obj dm []) ies ->
  sim (allregs obj ies) dm (mdecode_unordered be dsz c obj (map mentry_of' ies) m len dm)
    (decode_unordered c (map (fun d => entry_of' d) ies) m len) (fun dm' _ slots => struct_held false ies obj dm' slots).
Proof.
  intros Hb HE HG HL Hobj HF. unfold mdecode_unordered, decode_unordered.
  unfold bindm at 1. unfold lift at 1. unfold membof. destruct (N.ltb_spec obj dsz); [|lia].
  eapply sim_bind.
  - apply munord_sim; try assumption. split; [rewrite !map_length; reflexivity|].
    intros i d s Hd Hs. assert (Es : s = []).
    { apply nth_error_In, in_map_iff in Hs as (x & <- & _). reflexivity. }
    subst s. split; [|reflexivity]. rewrite Forall_forall in HF. apply HF. eapply nth_error_In; exact Hd.
  - intros m' seen slots HB [HL' HS]. cbv beta. rewrite (mcheck_sim obj m' seen ies 0 slots (proj1 HG) HS).
    destruct (check_mand 0 (map (fun d => entry_of' d) ies) slots) as [[]|e|u]; cbn [bind sim]; [| |exact I].
    + exists m', tt. split; [reflexivity|]. split; [apply same_refl|]. eapply states_held; exact HS.
    + exists m'. split; [reflexivity|apply same_refl].
Qed.

(* ---------------------------------------------------------------- ordered *)
Lemma same_tail obj d ies m m' : same_but (allregs obj ies) m m' -> same_but (allregs obj (d :: ies)) m m'.
Proof.
  intros H. apply (same_mono _ _ _ _ H). intros b k. unfold allregs, shift. rewrite !Forall_map, !Forall_forall. intros HA r Hr.
  apply HA. cbn [flat_map]. apply in_or_app. auto.
Qed.
Lemma tail_keeps obj d ies dm dm' s : Forall (apart2 d) ies -> laid d -> pitched d -> same_but (allregs obj ies) dm dm' ->
  slot_st d obj dm s -> slot_st d obj dm' s.
Proof.
  intros HA HL Hp HS. apply slot_st_agree; [exact HL|exact Hp|]. unfold regs_agree. apply Forall_forall. intros r Hr.
  apply (same_agree _ _ _ _ _ HS). unfold allregs, shift. apply Forall_map, Forall_forall. intros q Hq.
  change (apart (obj + fst r, snd r) (obj + fst q, snd q)). apply apart_shift.
  apply in_flat_map in Hq as (e & He & Hq). rewrite Forall_forall in HA. specialize (HA e He).
  unfold apart2 in HA. rewrite Forall_forall in HA. specialize (HA r Hr). rewrite Forall_forall in HA. apply HA, Hq.
Qed.
Lemma head_keeps obj d ies dm dm' : Forall (apart2 d) ies -> Forall (good obj) ies -> same_but (shift obj (regions d)) dm dm' ->
  Forall (fun e => slot_st e obj dm []) ies -> Forall (fun e => slot_st e obj dm' []) ies.
Proof.
  rewrite !Forall_forall. intros HA HG HS HF e He. destruct (HG e He) as (_ & _ & HLe & Hpe).
  eapply other_st; [exact (HA e He)|exact HLe|exact Hpe|exact HS|exact (HF e He)].
Qed.

Lemma mord_sim c obj : obj < dsz -> forall fuel mode ies s g dm, bytes_ok (ld_mem g) -> Forall entry_sim ies -> struct_good obj ies -> lenN dm = dsz ->
  match mode, ies with
  | MInner, d :: ies' => slot_st d obj dm s /\ (h_multi (mh_h (mhd d)) = None -> s = []) /\ Forall (fun e => slot_st e obj dm []) ies'
  | _, _ => Forall (fun e => slot_st e obj dm []) ies /\ s = []
  end ->
  sim (allregs obj ies) dm (mord_loop be dsz fuel mode c obj (map mentry_of' ies) g dm)
    (ord_loop fuel mode c (map (fun d => entry_of' d) ies) g (match ies with [] => [] | _ :: ies' => s :: map (fun _ => []) ies' end))
    (fun dm' _ slots => struct_held false ies obj dm' slots).
Proof.
  intros Hobj. induction fuel as [|fuel IH]; intros mode ies s g dm Hb HE HG HL HM; [exact I|].
  destruct ies as [|d ies].
  { destruct mode; cbn [map mord_loop ord_loop];
      first [exists dm, tt; split; [reflexivity|]; split; [apply same_refl|constructor] | exists dm; split; [reflexivity|apply same_refl]]. }
  destruct HG as (HG & HA & HC). pose proof HG as HG0. inversion_clear HG as [|? ? HGd HGr]. inversion_clear HA as [|? ? HAd HAr].
  inversion_clear HE as [|? ? HEd HEr].
  assert (HGtail : struct_good obj ies).
  { split; [exact HGr|]. split; [exact HAr|]. cbn [caps fold_right] in HC. fold (caps ies) in HC. lia. }
  pose proof HGd as (_ & _ & HLd & Hpd).
  set (nils := map (fun _ : mcoding K => @nil (val V)) ies).
  (* the rest of the table in a mode that starts with untouched members *)
  assert (Hrest : forall mode' g' dm', bytes_ok (ld_mem g') -> mode' <> MInner -> lenN dm' = dsz -> Forall (fun e => slot_st e obj dm' []) ies ->
    sim (allregs obj ies) dm' (mord_loop be dsz fuel mode' c obj (map mentry_of' ies) g' dm')
      (ord_loop fuel mode' c (map (fun d => entry_of' d) ies) g' nils) (fun dm'' _ slots => struct_held false ies obj dm'' slots)).
  { intros mode' g' dm' Hb' Hmode HL' HF. pose proof (IH mode' ies [] g' dm' Hb' HEr HGtail HL') as HI.
    assert (HM' : match mode', ies with
      | MInner, d :: ies' => slot_st d obj dm' [] /\ (h_multi (mh_h (mhd d)) = None -> @nil (val V) = []) /\ Forall (fun e => slot_st e obj dm' []) ies'
      | _, _ => Forall (fun e => slot_st e obj dm' []) ies /\ @nil (val V) = [] end) by (destruct mode'; [|easy|]; auto).
    specialize (HI HM'). unfold nils. destruct ies; exact HI. }
  (* ... prefixed by a finished member *)
  assert (Hcons : forall mode' g' dm0 dm' s', bytes_ok (ld_mem g') -> mode' <> MInner -> lenN dm' = dsz -> same_but (shift obj (regions d)) dm0 dm' ->
    slot_st d obj dm' s' -> Forall (fun e => slot_st e obj dm' []) ies ->
    sim (allregs obj (d :: ies)) dm0 (mord_loop be dsz fuel mode' c obj (map mentry_of' ies) g' dm')
      (r <- ord_loop fuel mode' c (map (fun d => entry_of' d) ies) g' nils ;; Ok (s' :: r))
      (fun dm'' _ slots => struct_held false (d :: ies) obj dm'' slots)).
  { intros mode' g' dm0 dm' s' Hb' Hmode HL' HB HS' HF. pose proof (Hrest mode' g' dm' Hb' Hmode HL' HF) as HR.
    destruct (ord_loop fuel mode' c (map (fun d => entry_of' d) ies) g' nils) as [r|e|u]; cbn [sim bind] in *; [| |exact I].
    - destruct HR as (m'' & x & E & HS'' & HH). exists m'', x. split; [exact E|]. split.
      + eapply same_trans; [eapply allregs_of; [left; reflexivity|exact HB]|apply same_tail; exact HS''].
      + constructor; [|exact HH]. eapply tail_keeps; eassumption.
    - destruct HR as (m'' & E & HS''). exists m''. split; [exact E|].
      eapply same_trans; [eapply allregs_of; [left; reflexivity|exact HB]|apply same_tail; exact HS'']. }
  (* decoding into d *)
  assert (Hdec : forall s0, slot_st d obj dm s0 -> (h_multi (mh_h (mhd d)) = None -> s0 = []) -> Forall (fun e => slot_st e obj dm []) ies ->
    sim (allregs obj (d :: ies)) dm
     ((pf <~ lift (flag_p dsz obj (mhd d)) ;;
        cp <~ lift (count_p dsz obj (mhd d)) ;;
        i <~ match cp with Some a => rd_uint be a | None => ret 0 end ;;
        _ <~ mdec_coding d c true obj (elem_ofs (mhd d) i) (match ld_val g with Some v => dropN v (ld_mem g) | None => [] end) (ld_len g) ;;
        _ <~ match pf with Some a => wr a (b2y true) | None => ret tt end ;;
        match cp with
        | None => mord_loop be dsz fuel MOuter c obj (map mentry_of' ies) g
        | Some a =>
          n <~ rd_uint be a ;;
          _ <~ wr a (u2y be (u32 (n + 1))) ;;
          match load_peek_tag c g with
          | UB u => lift (UB u)
          | Err _ => mord_loop be dsz fuel MOuter c obj (map mentry_of' ies) g
          | Ok peek =>
            if negb (ti_match peek (ld_ti g)) then mord_loop be dsz fuel MOuter c obj (map mentry_of' ies) g
            else
              match load_next c g with
              | (_, Err e) => lift (Err e)
              | (_, UB u) => lift (UB u)
              | (g', Ok _) => mord_loop be dsz fuel MInner c obj (map mentry_of' (d :: ies)) g'
              end
          end
        end) dm)
     (if match h_multi (mh_h (mhd d)) with Some (mx, _) => mx <=? lenN s0 | None => false end then UB OobWrite else
        v <- dec_coding (erase d) c true (match ld_val g with Some v => dropN v (ld_mem g) | None => [] end) (ld_len g) ;;
        let s' := match h_multi (mh_h (mhd d)) with Some _ => s0 ++ [v] | None => [v] end in
        match h_multi (mh_h (mhd d)) with
        | None => r <- ord_loop fuel MOuter c (map (fun d => entry_of' d) ies) g nils ;; Ok (s' :: r)
        | Some _ =>
          match load_peek_tag c g with
          | UB u => UB u
          | Err _ => r <- ord_loop fuel MOuter c (map (fun d => entry_of' d) ies) g nils ;; Ok (s' :: r)
          | Ok peek =>
            if negb (ti_match peek (ld_ti g)) then r <- ord_loop fuel MOuter c (map (fun d => entry_of' d) ies) g nils ;; Ok (s' :: r)
            else
              match load_next c g with
              | (_, Err e) => Err e
              | (_, UB u) => UB u
              | (g', Ok _) => ord_loop fuel MInner c (map (fun d => entry_of' d) (d :: ies)) g' (s' :: nils)
              end
          end
        end)
     (fun dm' _ slots => struct_held false (d :: ies) obj dm' slots)).
  { intros s0 HSd Hs0 HF. dif Efull; [exact I|].
    assert (HN : not_full d s0).
    { unfold not_full. destruct (h_multi (mh_h (mhd d))) as [[mx q]|]; [lia|auto]. }
    unfold bindm at 1. unfold lift at 1. rewrite flag_p_ok by exact HGd. cbv iota beta.
    unfold bindm at 1. unfold lift at 1. rewrite count_p_ok by exact HGd. cbv iota beta.
    unfold bindm at 1. rewrite (count_rd _ _ _ _ HSd). cbv iota beta. rewrite (elem_ofs_eq obj) by assumption.
    assert (Hin : obj + next_ofs d s0 + msize d <= dsz).
    { pose proof (next_in _ _ Hpd HN). pose proof (good_memb _ _ HGd). change (fst (mregion d)) with (mh_ofs (mhd d)) in *. lia. }
    pose proof (HEd c true obj (next_ofs d s0) (match ld_val g with Some v => dropN v (ld_mem g) | None => [] end) (ld_len g) dm HL Hin ltac:(destruct (ld_val g); [apply bytes_ok_dropN; exact Hb|constructor]) (fresh_zeroed _ _ _ _ HSd HN)) as HD.
    unfold bindm at 1. destruct (dec_coding (erase d) c true _ (ld_len g)) as [v|e|u]; cbn [sim] in HD; cbn [bind]; [| |exact I].
    2: { destruct HD as (dm1 & -> & H1). exists dm1. split; [reflexivity|]. eapply allregs_of; [left; reflexivity|]. eapply store_regs; eassumption. }
    destruct HD as (dm1 & [] & -> & H1 & Hv).
    destruct (flag_then_count obj d s0 v dm dm1 HGd HL HSd HN H1 Hv) as (dm2 & dm3 & E2 & E3 & HSt & HB).
    unfold bindm at 1. rewrite E2. cbv zeta.
    assert (HL3 : lenN dm3 = dsz) by (eapply same_len; eassumption).
    assert (HF3 : Forall (fun e => slot_st e obj dm3 []) ies) by (eapply head_keeps; eassumption).
    unfold count_a in *. destruct (h_multi (mh_h (mhd d))) as [[mx q]|] eqn:Em.
    - assert (E3' : forall A (f : mm A), (n <~ rd_uint be (obj + mh_cofs (mhd d)) ;; _ <~ wr (obj + mh_cofs (mhd d)) (u2y be (u32 (n + 1))) ;; f) dm2 = f dm3).
      { intros A f. unfold bindm in E3 |- *. destruct (rd_uint be (obj + mh_cofs (mhd d)) dm2) as [x [n|e|u]]; try discriminate.
        destruct (wr (obj + mh_cofs (mhd d)) (u2y be (u32 (n + 1))) x) as [y [z|e|u]]; try discriminate. injection E3 as -> _. reflexivity. }
      rewrite E3'. destruct (load_peek_tag c g) as [pt|e|u]; [|apply (Hcons MOuter); easy|exact I].
      destruct (negb (ti_match pt (ld_ti g))); [apply (Hcons MOuter); easy|].
      pose proof (load_next_mem c g) as HMm. destruct (load_next c g) as [g' [x|e|u]]; [| |exact I].
      + cbn [fst] in HMm. pose proof (IH MInner (d :: ies) (s0 ++ [v]) g' dm3 ltac:(rewrite HMm; exact Hb) (Forall_cons _ HEd HEr)) as HI. cbv iota in HI.
        assert (HI' := HI ltac:(split; [exact HG0|]; split; [constructor; assumption|exact HC]) HL3 ltac:(split; [exact HSt|]; split; [rewrite Em; discriminate|exact HF3])).
        fold nils in HI'. destruct (ord_loop fuel MInner c (map (fun d => entry_of' d) (d :: ies)) g' ((s0 ++ [v]) :: nils)) as [r|e|u]; cbn [sim] in *; [| |exact I].
        * destruct HI' as (m'' & y & E & HS'' & HH). exists m'', y. split; [exact E|]. split; [|exact HH].
          eapply same_trans; [eapply allregs_of; [left; reflexivity|exact HB]|exact HS''].
        * destruct HI' as (m'' & E & HS''). exists m''. split; [exact E|].
          eapply same_trans; [eapply allregs_of; [left; reflexivity|exact HB]|exact HS''].
      + exists dm3. split; [reflexivity|]. eapply allregs_of; [left; reflexivity|exact HB].
    - unfold ret in E3. injection E3 as <-. specialize (Hs0 eq_refl). subst s0. cbn [app] in HSt. apply (Hcons MOuter); easy. }
  (* same as before, with nothing decoded *)
  assert (Hskip : forall mode', mode' <> MInner -> Forall (fun e => slot_st e obj dm []) ies -> slot_st d obj dm s ->
     sim (allregs obj (d :: ies)) dm (mord_loop be dsz fuel mode' c obj (map mentry_of' ies) g dm)
      (r <- ord_loop fuel mode' c (map (fun d => entry_of' d) ies) g nils ;; Ok (s :: r))
      (fun dm'' _ slots => struct_held false (d :: ies) obj dm'' slots)).
  { intros mode' Hmode HF HSd. apply Hcons; auto. apply same_refl. }
  cbn [map mord_loop ord_loop]. cbv zeta. cbn [me_h me_dec mentry_of' e_h e_dec]. rewrite head_erase. fold nils.
  destruct mode.
  - destruct HM as [HM ->]. inversion_clear HM as [|? ? HSd HF].
    unfold bindm at 1. unfold lift at 1. rewrite flag_p_ok by exact HGd. cbv iota beta.
    unfold bindm at 1. unfold lift at 1. rewrite count_p_ok by exact HGd. cbv iota beta.
    pose proof (by_tag_mem c g (h_ti (mh_h (mhd d)))) as HMm. destruct (load_next_by_tag_inst c g (h_ti (mh_h (mhd d)))) as [g' [x|e|u]]; [| |exact I].
    + cbn [fst] in HMm. pose proof (IH MInner (d :: ies) [] g' dm ltac:(rewrite HMm; exact Hb) (Forall_cons _ HEd HEr)) as HI. cbv iota in HI. fold nils in HI. cbn [map] in HI. rewrite head_erase in HI. apply HI.
      * split; [exact HG0|]. split; [constructor; assumption|exact HC].
      * exact HL.
      * auto.
    + assert (HEr' : e <> ENOENT -> sim (allregs obj (d :: ies)) dm (dm, @Err unit e) (@Err (list (slot V)) e) (fun dm' _ slots => struct_held false (d :: ies) obj dm' slots)).
      { intros _. exists dm. split; [reflexivity|apply same_refl]. }
      destruct e; try (apply HEr'; discriminate). clear HEr'.
      pose proof (count_rd _ _ _ _ HSd) as HR. unfold bindm at 1.
      assert (Emiss : match flag_a obj d, count_a obj d with
         | Some _, _ => ret false
         | None, None => ret true
         | None, Some a => n <~ rd_uint be a ;; ret match h_multi (mh_h (mhd d)) with Some (_, mand) => n <? mand | None => false end
         end dm = (dm, Ok (negb (h_pres (mh_h (mhd d))) && match h_multi (mh_h (mhd d)) with Some (_, mand) => lenN (@nil (val V)) <? mand | None => true end))).
      { unfold flag_a, count_a, next_idx in *. destruct (h_pres (mh_h (mhd d))); [reflexivity|]. destruct (h_multi (mh_h (mhd d))) as [[mx q]|]; [|reflexivity].
        unfold bindm. rewrite HR. reflexivity. }
      rewrite Emiss. destruct (negb _ && _).
      * exists dm. split; [reflexivity|apply same_refl].
      * destruct (wr_flag obj d false dm HGd HL) as (dm1 & E1 & S1 & F1). unfold bindm at 1. rewrite E1.
        assert (HL1 : lenN dm1 = dsz) by (eapply same_len; eassumption).
        assert (HB : same_but (shift obj (regions d)) dm dm1).
        { eapply shift_sub; [exact S1|]. rewrite regions_eq. intros r Hr. right. apply in_or_app. auto. }
        assert (HSd1 : slot_st d obj dm1 []).
        { destruct (apart_facts _ _ HGd) as (A1 & A2 & A3). destruct HSd as [[HSa HSb] HSc].
          assert (HAm : agree (obj + fst (mregion d)) (snd (mregion d)) dm dm1).
          { apply (same_agree _ _ _ _ _ S1). unfold shift. apply Forall_map, Forall_forall. intros r Hr. apply apart_shift. rewrite Forall_forall in A1. auto. }
          split; [split|].
          - intros E. exists (b2y false). split; [auto|apply y2b_b2y].
          - destruct (h_multi (mh_h (mhd d))) as [[mx q]|] eqn:Em; [|easy]. destruct HSb as [(l & Hl & El) _]. split; [|intros [|i] v; discriminate].
            exists l. split; [|exact El]. eapply bytes_agree; [|exact Hl]. apply (same_agree _ _ _ _ _ S1). unfold shift. apply Forall_map, Forall_forall. intros r Hr.
            apply (apart_shift obj (mh_cofs (mhd d), 4)). apply apart_sym, A3; [exact Hr|]. unfold creg. rewrite Em. left. reflexivity.
          - unfold fresh_part, mregion in *. cbn [fst snd] in HAm. destruct (h_multi (mh_h (mhd d))) as [[mx q]|] eqn:Em.
            + destruct HSc as [HSc1 HSc2]. split; [exact HSc1|]. intros i Hi Hm. eapply zeroed_agree; [|exact (HSc2 i Hi Hm)].
              apply (agree_sub _ _ _ _ _ _ HAm); [lia|]. pose proof (elem_in d i mx q Hpd Em Hm). lia.
            + intros _. eapply zeroed_agree; [exact HAm|auto]. }
        replace (if h_pres (mh_h (mhd d)) then [] else []) with (@nil (val V)) by (destruct (h_pres (mh_h (mhd d))); reflexivity).
        apply (Hcons MOuter g dm dm1 []); try assumption; [discriminate|]. eapply head_keeps; eassumption.
  - destruct HM as (HSd & Hs & HF).
    unfold bindm at 1. unfold lift at 1. rewrite count_p_ok by exact HGd. cbv iota beta.
    assert (EF : match count_a obj d with Some a => n <~ rd_uint be a ;; ret (cmax (mhd d) <=? n) | None => ret false end dm
       = (dm, Ok match h_multi (mh_h (mhd d)) with Some (mx, _) => mx <=? lenN s | None => false end)).
    { pose proof (count_rd _ _ _ _ HSd) as HR. unfold count_a, next_idx in *. rewrite cmax_eq. destruct (h_multi (mh_h (mhd d))) as [[mx q]|]; [|reflexivity].
      unfold bindm. rewrite HR. reflexivity. }
    unfold bindm at 1. rewrite EF. cbv iota beta. clear EF. specialize (Hdec s HSd Hs HF).
    dif Efull; [apply (Hskip MJump); easy|]. cbn [map] in Hdec. rewrite head_erase in Hdec. rewrite (count_p_ok _ _ HGd) in Hdec. first [exact Hdec | rewrite Efull in Hdec; exact Hdec].
  - destruct HM as [HM ->]. inversion_clear HM as [|? ? HSd HF].
    destruct (ti_match (ld_ti g) (h_ti (mh_h (mhd d)))); [|apply (Hskip MJump); easy]. specialize (Hdec [] HSd ltac:(auto) HF). cbn [map] in Hdec. rewrite head_erase in Hdec. exact Hdec.
Qed.

Lemma ordered_sim c obj ies m len dm : bytes_ok m -> Forall entry_sim ies -> struct_good obj ies -> lenN dm = dsz -> obj < dsz ->
  Forall (fun d => slot_st d obj dm []) ies ->
  sim (allregs obj ies) dm (mdecode_ordered be dsz c obj (map mentry_of' ies) m len dm)
    (decode_ordered c (map (fun d => entry_of' d) ies) m len) (fun dm' _ slots => struct_held false ies obj dm' slots).
Proof.
  intros Hb HE HG HL Hobj HF. unfold mdecode_ordered, decode_ordered.
  unfold bindm at 1. unfold lift at 1. unfold membof. destruct (N.ltb_spec obj dsz); [|lia].
  rewrite !map_length.
  pose proof (mord_sim c obj Hobj (length ies + budget m len) MOuter ies [] (load_start m len) dm Hb HE HG HL) as H1.
  cbv iota in H1. specialize (H1 (conj HF eq_refl)).
  replace (map (fun _ => @nil (val V)) (map (fun d => entry_of' d) ies))
    with (match ies with [] => [] | _ :: ies' => @nil (val V) :: map (fun _ => []) ies' end); [exact H1|].
  destruct ies; [reflexivity|]. cbn [map]. f_equal. rewrite map_map. reflexivity.
Qed.

(* ---------------------------------------------------------------- regions do not overlap, so the struct is large enough *)
Definition cells (r : region) : list nat := seq (N.to_nat (fst r)) (N.to_nat (snd r)).
Definition total (rs : list region) : N := fold_right (fun r acc => snd r + acc) 0 rs.
Lemma NoDup_app' {A} (l l' : list A) : NoDup l -> NoDup l' -> (forall x, In x l -> ~ In x l') -> NoDup (l ++ l').
Proof.
  induction 1 as [|x l Hx Hl IH]; intros Hl' HD; [exact Hl'|]. cbn [app]. constructor.
  - rewrite in_app_iff. intros [H|H]; [exact (Hx H)|]. exact (HD x (or_introl eq_refl) H).
  - apply IH; [exact Hl'|]. intros y Hy. apply HD. right. exact Hy.
Qed.
Lemma cells_total rs : lenN (flat_map cells rs) = total rs.
Proof.
  induction rs as [|r rs IH]; [reflexivity|]. cbn [flat_map total fold_right]. rewrite lenN_app, IH. unfold lenN at 1, cells. rewrite seq_length. fold (total rs). lia.
Qed.
Lemma cells_nodup rs : ForallOrdPairs apart rs -> NoDup (flat_map cells rs).
Proof.
  induction 1 as [|r rs H1 H2 IH]; [constructor|]. cbn [flat_map]. apply NoDup_app'; [apply seq_NoDup|exact IH|].
  intros x Hx Hin. apply in_flat_map in Hin as (q & Hq & Hin). rewrite Forall_forall in H1. specialize (H1 q Hq).
  unfold cells in *. apply in_seq in Hx, Hin. unfold apart in H1. lia.
Qed.
Lemma apart_total sz rs : Forall (inside sz) rs -> ForallOrdPairs apart rs -> total rs <= sz.
Proof.
  intros HI HA. rewrite <- cells_total. pose proof (NoDup_incl_length (cells_nodup _ HA) (l' := seq 0 (N.to_nat sz))) as H.
  rewrite seq_length in H. unfold lenN. specialize (H ltac:(intros x Hx; apply in_flat_map in Hx as (r & Hr & Hx);
    rewrite Forall_forall in HI; specialize (HI r Hr); unfold inside in HI; unfold cells in Hx; apply in_seq in Hx; apply in_seq; lia)). lia.
Qed.
Lemma total_app a b : total (a ++ b) = total a + total b.
Proof. unfold total. induction a as [|r a IH]; [reflexivity|]. cbn [app fold_right]. rewrite IH. lia. Qed.
Lemma pairs_app {A} (R : A -> A -> Prop) l l' : ForallOrdPairs R l -> ForallOrdPairs R l' -> Forall (fun x => Forall (R x) l') l -> ForallOrdPairs R (l ++ l').
Proof.
  induction 1 as [|x l H1 H2 IH]; intros Hl' HX; [exact Hl'|]. inversion_clear HX as [|? ? Hx HX']. cbn [app]. constructor; [|apply IH; assumption].
  apply Forall_app. auto.
Qed.
Lemma caps_total ies : Forall laid ies -> Forall pitched ies -> caps ies <= total (flat_map regions ies).
Proof.
  induction ies as [|d ies IH]; intros HL HP; [reflexivity|]. inversion_clear HL as [|? ? HLd HLr]. inversion_clear HP as [|? ? HPd HPr].
  cbn [caps fold_right flat_map]. fold (caps ies). rewrite total_app, regions_eq. cbn [total fold_right]. specialize (IH HLr HPr).
  pose proof (laid_pos _ HLd) as Hpos. assert (cmax (mhd d) <= snd (mregion d)); [|lia].
  rewrite cmax_eq. unfold mregion, pitched in *. cbn [snd]. destruct (h_multi (mh_h (mhd d))) as [[mx q]|]; [|lia].
  assert (mx * 1 <= mx * mh_pitch (mhd d)) by (apply N.mul_le_mono_l; lia). lia.
Qed.
Lemma flat_pairs sz ies : table_laid lk sz ies -> ForallOrdPairs apart (flat_map regions ies).
Proof.
  intros (_ & _ & H1 & H2 & _). induction H2 as [|d ies Hd H2 IH]; [constructor|]. inversion_clear H1 as [|? ? H1d H1r]. cbn [flat_map].
  apply pairs_app; [exact H1d|exact (IH H1r)|]. apply Forall_forall. intros r Hr. apply Forall_forall. intros q Hq.
  apply in_flat_map in Hq as (e & He & Hq). rewrite Forall_forall in Hd. specialize (Hd e He). rewrite Forall_forall in Hd. specialize (Hd r Hr).
  rewrite Forall_forall in Hd. exact (Hd q Hq).
Qed.
Lemma flat_inside sz ies : table_laid lk sz ies -> Forall (inside sz) (flat_map regions ies).
Proof.
  intros (_ & HI & _). apply Forall_forall. intros r Hr. apply in_flat_map in Hr as (d & Hd & Hr). rewrite Forall_forall in HI.
  specialize (HI d Hd). rewrite Forall_forall in HI. auto.
Qed.
Lemma layout_good sz ies obj : layout_ok lk sz ies -> obj + sz <= dsz -> struct_good obj ies.
Proof.
  intros [HT HL] Hin. assert (HP : Forall pitched ies) by (apply Forall_forall; intros d Hd; eapply table_pitched; eauto).
  split; [|split].
  - pose proof HT as (_ & HI & HO & _). rewrite Forall_forall in *. intros d Hd. split; [|auto].
    specialize (HI d Hd). revert HI. apply Forall_impl. intros r. unfold inside. lia.
  - apply HT.
  - pose proof (caps_total _ HL HP). pose proof (apart_total _ _ (flat_inside _ _ HT) (flat_pairs _ _ HT)). lia.
Qed.
Lemma allregs_in sz ies obj m m' : table_laid lk sz ies -> same_but (allregs obj ies) m m' -> same_but [(obj, sz)] m m'.
Proof.
  intros HT H. apply (same_mono _ _ _ _ H). intros b k Hb. apply Forall_inv in Hb. unfold allregs, shift. apply Forall_map.
  apply (Forall_impl _ (P := inside sz)); [|exact (flat_inside _ _ HT)]. intros r Hr. unfold inside in Hr. unfold apart in *. cbn [fst snd] in *. lia.
Qed.
Lemma sim_mono {A B} rs rs' m x (y : res B) (R : list N -> A -> B -> Prop) :
  (forall m', same_but rs m m' -> same_but rs' m m') -> sim rs m x y R -> sim rs' m x y R.
Proof.
  intros H HS. destruct y; cbn [sim] in *; [| |exact I].
  - destruct HS as (m' & z & E & H1 & H2). exists m', z. auto.
  - destruct HS as (m' & E & H1). exists m'. auto.
Qed.

Lemma struct_sim sz ies c o obj m len dm : bytes_ok m -> Forall entry_sim ies -> layout_ok lk sz ies -> lenN dm = dsz -> obj + sz <= dsz -> zeroed obj sz dm ->
  sim [(obj, sz)] dm (mdecode_entries be dsz c o obj (map mentry_of' ies) m len dm)
    (decode_entries c o (map (fun d => entry_of' d) ies) m len) (fun dm' _ slots => struct_held false ies obj dm' slots).
Proof.
  intros Hb HE HLy HL Hin Hz. pose proof (layout_good _ _ _ HLy Hin) as HG. pose proof HLy as [HT HF]. pose proof HT as [Hpos _].
  assert (HS : Forall (fun d => slot_st d obj dm []) ies) by (apply Forall_forall; intros d Hd; eapply zeroed_slot; eauto).
  eapply sim_mono; [intros m'; apply (allregs_in sz ies obj dm m' HT)|].
  destruct o; [apply ordered_sim|apply unordered_sim]; auto; lia.
Qed.

Hypothesis Hdec : forall k, dec_ok lk la ld k.
Lemma all_sim d : laid d -> entry_sim d.
Proof.
  induction d as [h k|h sz nc o ies IH] using mcoding_ind'; intros HL.
  - apply leaf_sim; [apply Hdec|exact HL].
  - apply laid_nest in HL. intros c po obj memb m len dm Hdm Hin Hb Hz. cbn [MemSpec.msize] in *.
    cbn [MemModel.mdec_coding MemSpec.erase dec_coding]. cbv zeta. pose proof HL as [[Hpos _] HF].
    rewrite u32_small by lia. rewrite !map_map.
    assert (HE : Forall entry_sim ies).
    { rewrite Forall_forall in *. intros d Hd. apply IH; auto. }
    pose proof (struct_sim sz ies (match nc with Some x => x | None => c end)
      (match o with OrdSame => po | OrdOrdered => true | OrdUnordered => false end) (obj + memb) m len dm Hb HE HL Hdm Hin Hz) as HS.
    unfold mentry_of' in HS.
    destruct (decode_entries _ _ (map (fun d => entry_of' d) ies) m len) as [r|e|u]; cbn [sim bind] in *; [| |exact I].
    + destruct HS as (m' & a & E & H1 & H2). exists m', a. split; [exact E|]. split; [exact H1|]. apply val_held_nest. exact H2.
    + exact HS.
Qed.

Lemma same_only a n m m' : same_but [(a, n)] m m' -> only_changed a n m m'.
Proof.
  intros [HL H]. split; [exact HL|]. intros x Hx.
  assert (HP : forall mm i, peek i 1 mm = Ok [nth (N.to_nat i) mm 0] \/ (lenN mm <= i /\ peek i 1 mm = UB OobRead)).
  { intros mm0 i. unfold peek. destruct (N.leb_spec (i + 1) (lenN mm0)); [left|right; split; [lia|reflexivity]]. f_equal.
    unfold takeN, dropN. change (N.to_nat 1) with 1%nat. unfold lenN in *. clear -H0.
    assert (HH : (N.to_nat i < length mm0)%nat) by lia. revert HH. generalize (N.to_nat i). clear. intros n. revert mm0.
    induction n as [|n IH]; intros [|x l] HH; cbn in *; try lia; [reflexivity|]. apply IH. lia. }
  assert (HE : peek x 1 m' = peek x 1 m).
  { apply H. constructor; [|constructor]. unfold apart. cbn [fst snd]. lia. }
  destruct (N.lt_ge_cases x (lenN m)) as [Hlt|Hge].
  - destruct (HP m' x) as [E1|[E1 _]]; [|lia]. destruct (HP m x) as [E2|[E2 _]]; [|lia]. rewrite E1, E2 in HE. injection HE as HE.
    unfold lenN in *. rewrite (nth_error_nth' m' 0) by lia. rewrite (nth_error_nth' m 0) by lia. rewrite HE. reflexivity.
  - unfold lenN in *. rewrite !(proj2 (nth_error_None _ _)) by lia. reflexivity.
Qed.

Theorem decode_refines sz ies c o obj m len dm : bytes_ok m -> layout_ok lk sz ies -> lenN dm = dsz -> obj + sz <= dsz ->
  (exists l, bytes_at obj sz dm l /\ Forall (fun b => b = 0) l) ->
  match gtlvs_decode c o (Some (map erase ies)) m len with
  | Ok slots => exists dm', mgtlvs_decode lk be dsz c o obj (Some ies) m len dm = (dm', Ok tt)
                            /\ only_changed obj sz dm dm' /\ struct_held false ies obj dm' slots
  | Err e => exists dm', mgtlvs_decode lk be dsz c o obj (Some ies) m len dm = (dm', Err e) /\ only_changed obj sz dm dm'
  | UB _ => True
  end.
Proof.
  intros Hb HLy HL Hin (l & Hl & Hz). apply peek_iff in Hl.
  assert (HE : Forall entry_sim ies).
  { destruct HLy as [_ HF]. revert HF. apply Forall_impl. exact all_sim. }
  pose proof (struct_sim sz ies c o obj m len dm Hb HE HLy HL Hin (ex_intro _ l (conj Hl Hz))) as HS.
  unfold gtlvs_decode, mgtlvs_decode. rewrite map_map. unfold entry_of.
  change (map (mentry_of lk be dsz) ies) with (map mentry_of' ies).
  destruct (decode_entries c o (map (fun d => entry_of' d) ies) m len) as [r|e|u]; cbn [sim] in HS; [| |exact I].
  - destruct HS as (m' & [] & E & H1 & H2). exists m'. split; [exact E|]. split; [apply same_only; exact H1|exact H2].
  - destruct HS as (m' & E & H1). exists m'. split; [exact E|apply same_only; exact H1].
Qed.
End P.
