(* MemEncProofs.v -- encoding and printing from the memory of the C struct *)
From Coq Require Import String.
From Verif Require Import Base BaseProofs GtlvModel DecEncModel DecEncSpec DecEncProofs StrModel MemModel MemSpec MemProofs.
Local Open Scope N_scope.

Section P.
Context {V K : Type}.
Variable lk : K -> mleaf.
Variable ld : K -> list N -> V.
Variable be : bool.
Variable dsz : N.
Hypothesis Hdsz : dsz < 2 ^ 32.
Variable dm : list N.
Hypothesis Hdm : lenN dm = dsz.

Notation msize := (msize lk). Notation regions := (regions lk). Notation laid := (laid lk).
Notation val_held := (val_held lk ld be). Notation struct_held := (struct_held lk ld be).
Notation slot_held := (slot_held be).
Notation good := (good lk dsz). Notation pitched := (pitched lk).

(* how many values *)
Lemma how_many_ok np obj d s : good obj d -> slot_held true (mhd d) (val_held true d) obj dm s ->
  how_many be dsz dm np obj (mhd d) = Ok (lenN (to_encode (mh_h (mhd d)) s)).
Proof.
  intros HG [H1 H2]. unfold how_many. rewrite (flag_p_ok lk dsz Hdsz obj d HG), (count_p_ok lk dsz Hdsz obj d HG). cbn [bind].
  assert (EF : match flag_a obj d with Some a => l <- peek a 1 dm ;; Ok (y2b l) | None => Ok true end
               = Ok (negb (h_pres (mh_h (mhd d))) || nonempty s)).
  { unfold flag_a. destruct (h_pres (mh_h (mhd d))) eqn:Ep; [|reflexivity]. destruct (H1 eq_refl) as (l & Hl & El). apply peek_iff in Hl. rewrite Hl. cbn [bind negb orb]. rewrite El. reflexivity. }
  rewrite EF. cbn [bind]. unfold to_encode, count_a in *. pose proof HG as (_ & _ & HL & Hp). pose proof (laid_pos _ _ HL) as Hpos.
  unfold MemProofs.pitched in Hp.
  destruct (h_multi (mh_h (mhd d))) as [[mx q]|] eqn:Em.
  - destruct H2 as [(l & Hl & El) _]. apply peek_iff in Hl.
    destruct (negb (h_pres (mh_h (mhd d))) || nonempty s) eqn:Eo; cbn [negb].
    + rewrite Hl. cbn [bind]. destruct (N.eqb_spec (mh_pitch (mhd d)) 0); [lia|]. rewrite andb_false_r, El. reflexivity.
    + destruct s; [reflexivity|]. cbn [nonempty] in Eo. rewrite orb_true_r in Eo. discriminate.
  - destruct s as [|v [|w s]]; [| |easy].
    + rewrite (H2 eq_refl). reflexivity.
    + cbn [nonempty]. rewrite orb_true_r. reflexivity.
Qed.

(* where the i-th value is *)
Lemma value_at obj d s i v : good obj d -> slot_held true (mhd d) (val_held true d) obj dm s ->
  nth_error (to_encode (mh_h (mhd d)) s) i = Some v ->
  match h_multi (mh_h (mhd d)) with Some (mx, _) => N.of_nat i < mx | None => True end ->
  let o := elem_ofs (mhd d) (N.of_nat i) in val_held true d (obj + o) dm v /\ obj + o + msize d <= dsz.
Proof.
  intros HG [_ H2] Hi Hm. pose proof HG as (_ & _ & HL & Hp). pose proof (good_memb _ _ _ _ HG) as HM. pose proof (laid_pos _ _ HL).
  unfold to_encode in *. cbv zeta. unfold elem_ofs. unfold mregion in HM. cbn [fst snd] in HM.
  destruct (h_multi (mh_h (mhd d))) as [[mx q]|] eqn:Em.
  - destruct H2 as [_ H2]. pose proof (elem_in lk dsz Hdsz d (N.of_nat i) mx q Hp Em Hm).
    rewrite (u32_small (_ * _)) by lia. rewrite u32_small by lia. split; [|lia].
    rewrite N.add_assoc. exact (H2 i v Hi Hm).
  - destruct s as [|w [|x s]]; [destruct i; discriminate| |easy]. destruct i as [|i]; [|destruct i; discriminate].
    injection Hi as <-. change (N.of_nat 0) with 0. rewrite N.mul_0_l. change (u32 0) with 0. rewrite N.add_0_r, u32_small by lia. split; [exact H2|lia].
Qed.

(* ---------------------------------------------------------------- encoding *)
Section Enc.
Variable la : K -> leaf V.
Notation erase := (erase la).
Definition enc_sim (d : mcoding K) : Prop := forall c cap buf obj memb v, obj + memb + msize d <= dsz ->
  val_held true d (obj + memb) dm v ->
  menc_coding lk be dsz dm d c cap buf obj memb = enc_coding (erase d) c cap buf v.
Notation mee' d := (mkMEE (mhd d) (menc_coding lk be dsz dm d)).
Notation ee' d := (mkEEntry (head (erase d)) (enc_coding (erase d))).

Lemma enc_vals_sim c obj d s : good obj d -> enc_sim d -> slot_held true (mhd d) (val_held true d) obj dm s ->
  forall vals pre p, to_encode (mh_h (mhd d)) s = pre ++ vals ->
  menc_vals c obj (mee' d) p (lenN pre) (length vals) = enc_vals c (ee' d) p (lenN pre) vals.
Proof.
  intros HG HE HS. induction vals as [|v vals IH]; intros pre p Eq; [reflexivity|].
  cbn [length menc_vals enc_vals]. cbn [mx_h mx_enc ee_h ee_enc]. rewrite head_erase.
  destruct (put_tli c p (h_ti (mh_h (mhd d))) 0) as [p1 [x|e|u]]; [| |reflexivity].
  all: destruct (match h_multi (mh_h (mhd d)) with Some (mx, _) => mx <=? lenN pre | None => false end) eqn:Ef; [reflexivity|].
  all: destruct (value_at obj d s (length pre) v HG HS) as [Hv Hin];
    [rewrite Eq, nth_error_app2, Nat.sub_diag by lia; reflexivity
    |destruct (h_multi (mh_h (mhd d))) as [[mx q]|]; [unfold lenN in Ef; lia|exact I]|].
  all: fold (lenN pre) in Hv, Hin; rewrite (HE c (pt_cap p1) (pt_buf p1) obj _ v Hin Hv).
  all: destruct (enc_coding (erase d) c (pt_cap p1) (pt_buf p1) v); try reflexivity.
  all: destruct (put_update_tl c (mkPut buf (pt_cap p1) (pt_last p1))) as [p2 [y|e'|u]]; try reflexivity.
  all: replace (lenN pre + 1) with (lenN (pre ++ [v])) by (rewrite lenN_app; reflexivity).
  all: specialize (IH (pre ++ [v]) p2); rewrite head_erase in IH; apply IH; rewrite <- app_assoc; exact Eq.
Qed.

Lemma enc_entries_sim c obj : forall ies slots p, Forall enc_sim ies -> Forall (good obj) ies -> struct_held true ies obj dm slots ->
  menc_entries be dsz dm c obj (map (fun d => mee' d) ies) p = enc_entries c (map (fun d => ee' d) ies) p slots.
Proof.
  intros ies slots p HE HG HS. revert p HE HG. induction HS as [|d s ies slots Hs HS IH]; intros p HE HG; [reflexivity|].
  inversion_clear HE as [|? ? HEd HEr]. inversion_clear HG as [|? ? HGd HGr]. cbn [map menc_entries enc_entries]. cbn [mx_h ee_h].
  rewrite (how_many_ok true obj d s HGd Hs). rewrite head_erase.
  pose proof (enc_vals_sim c obj d s HGd HEd Hs (to_encode (mh_h (mhd d)) s) [] p eq_refl) as E. rewrite lenN_nil, head_erase in E.
  unfold lenN at 1. rewrite Nat2N.id, E. destruct (enc_vals _ _ _ _ _); try reflexivity. apply IH; assumption.
Qed.

Hypothesis Henc : forall k, enc_ok lk la ld k.
Lemma all_enc_sim d : laid d -> enc_sim d.
Proof.
  induction d as [h k|h sz nc o ies IH] using mcoding_ind'; intros HL c cap buf obj memb v Hin Hv.
  - destruct v as [x|]; [|easy]. cbn [MemSpec.msize MemSpec.val_held MemModel.menc_coding MemSpec.erase enc_coding] in *.
    destruct Hv as (l & Hl & <-). apply peek_iff in Hl. specialize (Henc k). unfold enc_ok in Henc. cbn [MemSpec.laid] in HL.
    destruct (lf_enc (la k)) as [f|], (ml_enc (lk k)) as [f'|]; try easy.
    rewrite (membof_ok dsz Hdsz) by lia. cbn [bind]. rewrite Hl. rewrite (Henc _ l (proj1 (peek_len _ _ _ _ Hl))). reflexivity.
  - destruct v as [|slots]; [easy|]. apply val_held_nest in Hv. apply laid_nest in HL. pose proof HL as [[Hpos _] HF].
    cbn [MemSpec.msize MemModel.menc_coding MemSpec.erase enc_coding] in *. rewrite u32_small by lia.
    unfold menc_list, enc_list, membof. destruct (N.ltb_spec (obj + memb) dsz); [|lia]. rewrite map_map.
    rewrite <- (enc_entries_sim (match nc with Some x => x | None => c end) (obj + memb) ies slots (mkPut buf cap None)); [reflexivity| | |exact Hv].
    + rewrite Forall_forall in *. intros d Hd. apply IH; auto.
    + apply (layout_good lk dsz Hdsz sz ies (obj + memb) HL Hin).
Qed.
Theorem encode_refines sz ies c cap obj buf slots : layout_ok lk sz ies -> obj + sz <= dsz -> struct_held true ies obj dm slots ->
  mgtlvs_encode lk be dsz dm c cap obj (Some ies) buf = gtlvs_encode c cap (Some (map erase ies)) buf slots.
Proof.
  intros HL Hin HS. pose proof HL as [[Hpos _] HF]. unfold mgtlvs_encode, gtlvs_encode, menc_list, enc_list, membof.
  destruct (N.ltb_spec obj dsz); [|lia]. rewrite map_map. unfold eentry_of.
  rewrite <- (enc_entries_sim c obj ies slots (mkPut buf cap None)); [reflexivity| | |exact HS].
  - revert HF. apply Forall_impl. exact all_enc_sim.
  - apply (layout_good lk dsz Hdsz sz ies obj HL Hin).
Qed.

End Enc.
(* ---------------------------------------------------------------- printing *)
Section Str.
Variable ls : K -> option (V -> strfn).
Variable names : N -> list N.
Definition str_sim (d : mcoding K) : Prop := forall sb obj memb v, obj + memb + msize d <= dsz ->
  val_held true d (obj + memb) dm v ->
  mts_put lk be dsz dm names d sb obj memb = ts_put ls names (erase_str d) sb v.
Notation mte' d := (mkMTE (mhd d) (mts_put lk be dsz dm names d)).
Notation te' d := (mkTEntry (thead (erase_str d)) (ts_put ls names (erase_str d))).
Lemma thead_erase (d : mcoding K) : thead (erase_str d) = mh_h (mhd d).
Proof. destruct d; reflexivity. Qed.

Lemma ts_vals_sim obj d s : good obj d -> str_sim d -> slot_held true (mhd d) (val_held true d) obj dm s ->
  forall vals pre sb, to_encode (mh_h (mhd d)) s = pre ++ vals ->
  mts_vals obj (mte' d) sb (lenN pre) (length vals) = ts_vals (te' d) sb (lenN pre) vals.
Proof.
  intros HG HE HS. induction vals as [|v vals IH]; intros pre sb Eq; [reflexivity|].
  cbn [length mts_vals ts_vals]. cbn [mt_h mt_put te_h te_put]. rewrite thead_erase.
  destruct (match h_multi (mh_h (mhd d)) with Some (mx, _) => mx <=? lenN pre | None => false end) eqn:Ef; [reflexivity|].
  destruct (value_at obj d s (length pre) v HG HS) as [Hv Hin];
    [rewrite Eq, nth_error_app2, Nat.sub_diag by lia; reflexivity
    |destruct (h_multi (mh_h (mhd d))) as [[mx q]|]; [unfold lenN in Ef; lia|exact I]|].
  fold (lenN pre) in Hv, Hin. destruct (if 0 <? lenN pre then _ else _) as [sb1|e|u]; cbn [bind]; [|reflexivity|reflexivity].
  rewrite (HE sb1 obj _ v Hin Hv). destruct (ts_put ls names (erase_str d) sb1 v) as [sb2|e|u]; cbn [bind]; [|reflexivity|reflexivity].
  replace (lenN pre + 1) with (lenN (pre ++ [v])) by (rewrite lenN_app; reflexivity).
  specialize (IH (pre ++ [v]) sb2). rewrite thead_erase in IH. apply IH. rewrite <- app_assoc. exact Eq.
Qed.
Lemma ts_entries_sim obj : forall ies slots sb, Forall str_sim ies -> Forall (good obj) ies -> struct_held true ies obj dm slots ->
  mts_entries be dsz dm names obj (map (fun d => mte' d) ies) sb = ts_entries names (map (fun d => te' d) ies) slots sb.
Proof.
  intros ies slots sb HE HG HS. revert sb HE HG. induction HS as [|d s ies slots Hs HS IH]; intros sb HE HG; [reflexivity|].
  inversion_clear HE as [|? ? HEd HEr]. inversion_clear HG as [|? ? HGd HGr]. cbn [map mts_entries ts_entries]. cbn [mt_h te_h].
  rewrite (how_many_ok false obj d s HGd Hs). rewrite thead_erase. cbn [bind].
  pose proof (fun sb => ts_vals_sim obj d s HGd HEd Hs (to_encode (mh_h (mhd d)) s) [] sb eq_refl) as E.
  destruct (to_encode (mh_h (mhd d)) s) as [|v vals].
  { rewrite lenN_nil. change (0 =? 0) with true. cbv iota. apply IH; assumption. }
  destruct (N.eqb_spec (lenN (v :: vals)) 0) as [E0|_]; [unfold lenN in E0; cbn [length] in E0; lia|].
  cbv zeta. unfold lenN at 1. rewrite Nat2N.id.
  destruct (sb_printf sb _) as [sb1|e|u]; cbn [bind]; [|reflexivity|reflexivity].
  destruct (if match h_multi (mh_h (mhd d)) with Some _ => true | None => false end then sb_printf sb1 (str "{ ") else Ok sb1) as [sb2|e|u]; cbn [bind]; [|reflexivity|reflexivity].
  specialize (E sb2). rewrite lenN_nil, thead_erase in E. rewrite E.
  destruct (ts_vals _ sb2 0 (v :: vals)) as [[sb3|r]|e|u]; cbn [bind]; [|reflexivity|reflexivity|reflexivity].
  destruct (if match h_multi (mh_h (mhd d)) with Some _ => true | None => false end then sb_printf sb3 (str " }") else Ok sb3) as [sb4|e|u]; cbn [bind]; [|reflexivity|reflexivity].
  apply IH; assumption.
Qed.

Lemma sb_append_ext sb f g : (forall b n, f b n = g b n) -> sb_append sb f = sb_append sb g.
Proof. intros H. unfold sb_append. rewrite ?H. reflexivity. Qed.

Hypothesis Hstr : forall k, str_ok lk ls ld k.
Lemma all_str_sim d : laid d -> str_sim d.
Proof.
  induction d as [h k|h sz nc o ies IH] using mcoding_ind'; intros HL sb obj memb v Hin Hv.
  - destruct v as [x|]; [|easy]. cbn [MemSpec.msize MemSpec.val_held MemModel.mts_put MemSpec.erase_str ts_put] in *.
    destruct Hv as (l & Hl & <-). apply peek_iff in Hl. specialize (Hstr k). unfold str_ok in Hstr. cbn [MemSpec.laid] in HL.
    destruct (ls k) as [f|], (ml_str (lk k)) as [f'|]; try easy.
    rewrite (membof_ok dsz Hdsz) by lia. cbn [bind]. rewrite Hl. cbn [bind]. apply sb_append_ext. intros b n. apply Hstr. apply (peek_len _ _ _ _ Hl).
  - destruct v as [|slots]; [easy|]. apply val_held_nest in Hv. apply laid_nest in HL. pose proof HL as [[Hpos _] HF].
    cbn [MemSpec.msize MemModel.mts_put MemSpec.erase_str ts_put] in *. rewrite u32_small by lia.
    destruct (sb_printf sb (str "{")) as [sb1|e|u]; cbn [bind]; [|reflexivity|reflexivity].
    rewrite map_map. erewrite sb_append_ext; [reflexivity|]. intros b n. cbv beta.
    unfold mts_struct, membof. destruct (N.ltb_spec (obj + memb) dsz); [|lia]. cbn [bind].
    apply ts_entries_sim; [| |exact Hv].
    + rewrite Forall_forall in *. intros d Hd. apply IH; auto.
    + apply (layout_good lk dsz Hdsz sz ies (obj + memb) HL Hin).
Qed.
Theorem to_str_refines sz ies obj slots b n : layout_ok lk sz ies -> obj + sz <= dsz -> struct_held true ies obj dm slots ->
  mgtlvs_to_str lk be dsz dm names obj (Some ies) b n = gtlvs_to_str ls names (Some (map erase_str ies)) slots b n.
Proof.
  intros HL Hin HS. pose proof HL as [[Hpos _] HF]. unfold mgtlvs_to_str, gtlvs_to_str, mts_struct, membof.
  destruct (N.ltb_spec obj dsz); [|lia]. cbn [bind]. rewrite map_map. unfold tentry_of.
  apply ts_entries_sim; [| |exact HS].
  - revert HF. apply Forall_impl. exact all_str_sim.
  - apply (layout_good lk dsz Hdsz sz ies obj HL Hin).
Qed.
End Str.
End P.

(* ---------------------------------------------------------------- admissible counts: nothing is missing *)
Section Strict.
Context {V K : Type}.
Variable lk : K -> mleaf.
Variable la : K -> leaf V.
Variable ld : K -> list N -> V.
Variable be : bool.
Lemma strict_val : forall d a m v, counts_ok (erase la d) v -> val_held lk ld be false d a m v -> val_held lk ld be true d a m v.
Proof.
  assert (HS : forall d a m s, (forall a m v, counts_ok (erase la d) v -> val_held lk ld be false d a m v -> val_held lk ld be true d a m v) ->
    count_ok (mh_h (mhd d)) (lenN s) -> Forall (counts_ok (erase la d)) s ->
    slot_held be false (mhd d) (val_held lk ld be false d) a m s -> slot_held be true (mhd d) (val_held lk ld be true d) a m s).
  { intros d a m s IH Hc HF [H1 H2]. split; [exact H1|]. unfold count_ok in Hc. rewrite Forall_forall in HF.
    destruct (h_multi (mh_h (mhd d))) as [[mx q]|].
    - destruct H2 as [H2 H3]. split; [exact H2|]. intros i v Hi Hm. apply IH; [apply HF; eapply nth_error_In; exact Hi|auto].
    - destruct s as [|v [|w s]]; [|apply IH; [apply HF; left; reflexivity|exact H2]|easy].
      intros _. destruct (h_pres (mh_h (mhd d))); [reflexivity|]. rewrite lenN_nil in Hc. lia. }
  intros d. induction d as [h k|h sz nc o ies IH] using mcoding_ind'; intros a m v Hc Hv.
  - exact Hv.
  - destruct v as [|slots]; [easy|]. apply val_held_nest in Hv. apply val_held_nest. cbn [MemSpec.erase counts_ok] in Hc.
    unfold struct_held in *. induction Hv as [|d s ies slots Hs Hv IHv]; [constructor|]. cbn [map] in Hc. destruct Hc as (Hc1 & Hc2 & Hc3).
    inversion_clear IH as [|? ? IHd IHr]. constructor; [|apply IHv; assumption]. rewrite head_erase in Hc1. apply HS; auto.
Qed.
Lemma strict_struct ies a m slots : struct_ok (map (erase la) ies) slots -> struct_held lk ld be false ies a m slots ->
  struct_held lk ld be true ies a m slots.
Proof.
  intros Hok H. apply (val_held_nest lk ld be true (mkMHead (mkHead (ti_of_tag 0) false None) 0 0 0 0) 0 None OrdSame).
  apply strict_val; [|apply val_held_nest; exact H]. cbn [MemSpec.erase counts_ok]. clear H. unfold struct_ok in Hok. revert slots Hok.
  induction (map (erase la) ies) as [|d l IH]; intros slots Hok; inversion Hok as [|? ? ? ? [Ha Hb] Hc]; subst; [exact I|]. split; [exact Ha|]. split; [exact Hb|]. apply IH, Hc.
Qed.
End Strict.
