(* StrProofs.v -- the to_str functions write the texts of StrSpec.v *)
From Coq Require Import String DecimalN HexadecimalN.
From Verif Require Import Base BaseProofs GtlvModel DecEncModel DecEncSpec DecEncProofs IesModel TablesModel MsgModel MsgProofs AcceptProofs
  StrModel StrSpec.

Lemma dropN_cons {A} n (x : A) l : dropN (1 + n) (x :: l) = dropN n l.
Proof. unfold dropN. replace (N.to_nat (1 + n)) with (S (N.to_nat n)) by lia. reflexivity. Qed.
Lemma takeN_app_ge {A} n (a b : list A) : lenN a <= n -> takeN n (a ++ b) = a ++ takeN (n - lenN a) b.
Proof.
  intros H. unfold takeN, lenN in *. rewrite firstn_app. rewrite firstn_all2 by lia. do 2 f_equal. lia.
Qed.
Lemma lenN_takeN_min {A} n (l : list A) : lenN (takeN n l) = N.min n (lenN l).
Proof. unfold takeN, lenN. rewrite firstn_length. lia. Qed.
Lemma dropN_app_ge {A} n (a b : list A) : lenN a <= n -> dropN n (a ++ b) = dropN (n - lenN a) b.
Proof.
  intros H. unfold dropN, lenN in *. rewrite skipn_app. rewrite skipn_all2 by lia. cbn [app]. f_equal. lia.
Qed.
Lemma dropN_hd {A} (m : list A) n : n < lenN m -> exists x, dropN n m = x :: dropN (n + 1) m.
Proof.
  intros H. destruct (dropN n m) as [|x l] eqn:E.
  - apply (f_equal lenN) in E. rewrite lenN_dropN, lenN_nil in E. lia.
  - exists x. f_equal. rewrite <- dropN_dropN, E. replace 1 with (1 + 0) by lia. rewrite dropN_cons. reflexivity.
Qed.

Lemma printed_len s n m m' : n <= lenN m -> printed s n m m' -> lenN m' = lenN m /\ dropN n m' = dropN n m.
Proof.
  intros Hn. unfold printed. destruct (N.eqb_spec n 0) as [->|H0]; [intros ->; split; reflexivity|].
  intros (z & -> & _). set (k := N.min (n - 1) (lenN s)). assert (Hk : lenN (takeN k s) = k) by (rewrite lenN_takeN_min; lia).
  split.
  - rewrite lenN_app, lenN_cons, lenN_dropN, Hk. lia.
  - rewrite dropN_app_ge by lia. rewrite Hk. replace (n - k) with (1 + (n - k - 1)) by lia. rewrite dropN_cons, dropN_dropN. f_equal. lia.
Qed.

(* ---------------------------------------------------------------- the string buffer *)

Definition sb_at (sb : strbuf) : N := match sb_pos sb with Some p => p | None => 0 end.
(* [s] has been written so far *)
Definition sbI (m0 : list N) (n : N) (s : list N) (sb : strbuf) : Prop :=
  exists m', sb_buf sb = Some m' /\ sb_len sb = n /\ sb_needed sb = lenN s /\ sb_at sb = N.min n (lenN s) /\ printed s n m0 m'.

Lemma sbI_init m n : n <= lenN m -> sbI m n [] (sb_init (Some m) n).
Proof.
  intros H. exists m. split; [reflexivity|]. split; [reflexivity|]. split; [reflexivity|].
  split; [change (0 = N.min n 0); lia|]. unfold printed. destruct (N.eqb_spec n 0); [reflexivity|].
  change (lenN (@nil N)) with 0. replace (N.min (n - 1) 0) with 0 by lia. destruct (dropN_hd m 0) as [x Hx]; [lia|].
  exists x. change (dropN 0 m) with m in Hx. split; [exact Hx|]. right. split; [reflexivity|]. rewrite Hx. reflexivity.
Qed.

Lemma sbI_append m0 n s sb f t : n <= lenN m0 -> sbI m0 n s sb -> renders f t ->
  exists sb', sb_append sb f = Ok sb' /\ sbI m0 n (s ++ t) sb' /\ sb_pos sb' <> None.
Proof.
  intros Hn (m' & Hb & Hl & Hnd & Hp & Hpr) Hr.
  destruct (printed_len _ _ _ _ Hn Hpr) as [Hlen Hdr].
  unfold sb_append. rewrite Hb. cbn [option_map].
  set (pos := match sb_pos sb with Some p => Some p | None => Some 0 end).
  assert (Epos : pos = Some (sb_at sb)) by (unfold pos, sb_at; destruct (sb_pos sb); reflexivity). rewrite Epos, Hp, Hl.
  set (ofs := N.min n (lenN s)). set (rem := n - ofs).
  destruct (Hr (dropN ofs m') rem) as (t' & Et & Hpt); [rewrite lenN_dropN; unfold rem; lia|].
  rewrite Et. cbn [bind]. eexists. split; [reflexivity|]. rewrite N2Z.id.
  assert (Hlt : (Z.of_N (lenN t) <? 0)%Z = false) by (apply Z.ltb_ge; lia). rewrite Hlt. cbn [orb].
  split; [|cbn [sb_pos option_map]; destruct (Z.of_N rem <? Z.of_N (lenN t))%Z; discriminate].
  exists (takeN ofs m' ++ t'). cbn [sb_buf sb_len sb_needed sb_pos sb_at option_map]. split; [reflexivity|]. split; [reflexivity|].
  split; [|split].
  - rewrite lenN_app. destruct (Z.ltb_spec 0 (Z.of_N (lenN t))); lia.
  - unfold sb_at. cbn [sb_pos]. rewrite lenN_app. destruct (Z.ltb_spec (Z.of_N rem) (Z.of_N (lenN t))); unfold rem, ofs in *; lia.
  - unfold printed in *. destruct (N.eqb_spec n 0) as [->|H0].
    { subst m'. unfold rem in Hpt. replace (0 - ofs) with 0 in Hpt by lia. change (0 =? 0) with true in Hpt. cbn iota in Hpt.
      subst t'. replace ofs with 0 by (unfold ofs; lia). reflexivity. }
    destruct Hpr as (z & Em & Hz). destruct (N.le_gt_cases n (lenN s)) as [Hge|Hlt'].
    + (* no room left *)
      unfold rem, ofs in Hpt. replace (n - N.min n (lenN s)) with 0 in Hpt by lia. change (0 =? 0) with true in Hpt. cbn iota in Hpt.
      subst t'. unfold ofs. rewrite takeN_dropN. exists z. split.
      * rewrite Em at 1. rewrite lenN_app. replace (N.min (n - 1) (lenN s)) with (n - 1) by lia.
        replace (N.min (n - 1) (lenN s + lenN t)) with (n - 1) by lia. rewrite takeN_app_le by lia. reflexivity.
      * destruct Hz as [Hz|[Hz _]]; [left; exact Hz|]. subst s. rewrite lenN_nil in Hge. lia.
    + replace (N.min (n - 1) (lenN s)) with (lenN s) in Em by lia. rewrite takeN_all in Em by lia.
      assert (Hofs : ofs = lenN s) by (unfold ofs; lia). rewrite Hofs in *.
      assert (E1 : takeN (lenN s) m' = s) by (rewrite Em; apply takeN_app).
      assert (E2 : dropN (lenN s) m' = z :: dropN (lenN s + 1) m0) by (rewrite Em; apply dropN_app).
      rewrite E1. rewrite E2 in Hpt. destruct (N.eqb_spec rem 0) as [Hr0|Hr0]; [unfold rem in Hr0; lia|].
      destruct Hpt as (z2 & Et' & Hz2). set (k2 := N.min (rem - 1) (lenN t)) in *.
      exists z2. rewrite Et'. rewrite lenN_app. replace (N.min (n - 1) (lenN s + lenN t)) with (lenN s + k2) by (unfold k2, rem; lia).
      split.
      * rewrite takeN_app_ge by lia. replace (lenN s + k2 - lenN s) with k2 by lia. rewrite app_assoc. f_equal. f_equal.
        replace (k2 + 1) with (1 + k2) by lia. rewrite dropN_cons, dropN_dropN. f_equal. lia.
      * destruct Hz2 as [Hz2|[Ht0 Hz2]]; [left; exact Hz2|]. cbn in Hz2. injection Hz2 as <-. subst t. rewrite app_nil_r.
        destruct Hz as [Hz|[Hs0 Hz]]; [left; exact Hz|right; split; assumption].
Qed.

Lemma snprintf_renders s : renders (snprintf s) s.
Proof.
  intros m n Hn. unfold snprintf, printed. destruct (N.eqb_spec n 0) as [H|H]; [exists m; split; reflexivity|].
  assert (Hw : lenN (takeN (n - 1) s ++ [0]) = N.min (n - 1) (lenN s) + 1) by (rewrite lenN_app, lenN_takeN_min; reflexivity).
  rewrite Hw. destruct (N.ltb_spec (lenN m) (N.min (n - 1) (lenN s) + 1)); [lia|].
  eexists. split; [reflexivity|]. exists 0. split; [|left; reflexivity]. rewrite <- app_assoc. cbn [app]. f_equal.
  destruct (N.le_ge_cases (n - 1) (lenN s)); [f_equal; lia|]. rewrite !takeN_all by lia. reflexivity.
Qed.
Lemma sbI_printf m0 n s sb t : n <= lenN m0 -> sbI m0 n s sb ->
  exists sb', sb_printf sb t = Ok sb' /\ sbI m0 n (s ++ t) sb' /\ sb_pos sb' <> None.
Proof. intros Hn H. apply (sbI_append _ _ _ _ _ _ Hn H), snprintf_renders. Qed.
Lemma sbI_return m0 n s sb : sbI m0 n s sb -> exists m', sb_return sb = Ok (Some m', Z.of_N (lenN s)) /\ printed s n m0 m'.
Proof. intros (m' & Hb & _ & Hnd & _ & Hp). exists m'. unfold sb_return. rewrite Hb, Hnd. split; [reflexivity|exact Hp]. Qed.

(* NULL buffer *)
Definition sbM (s : list N) (sb : strbuf) : Prop := sb = mkSb None 0 None (lenN s).
Lemma sbM_append s sb f t : sbM s sb -> measures f t -> exists sb', sb_append sb f = Ok sb' /\ sbM (s ++ t) sb'.
Proof.
  intros -> Hf. unfold sb_append. cbn [sb_buf sb_pos sb_len sb_needed option_map]. rewrite Hf. cbn [bind]. eexists. split; [reflexivity|].
  unfold sbM. f_equal.
  - change (0 =? 0) with true. destruct (_ || _)%bool; reflexivity.
  - rewrite lenN_app, N2Z.id. destruct (Z.ltb_spec 0 (Z.of_N (lenN t))); lia.
Qed.
Lemma snprintf_measures s : measures (snprintf s) s.
Proof. reflexivity. Qed.
Lemma sbM_printf s sb t : sbM s sb -> exists sb', sb_printf sb t = Ok sb' /\ sbM (s ++ t) sb'.
Proof. intros H. apply (sbM_append _ _ _ _ H), snprintf_measures. Qed.
Lemma sbM_return s sb : sbM s sb -> sb_return sb = Ok (None, Z.of_N (lenN s)).
Proof. intros ->. reflexivity. Qed.

(* no overflow, whatever is written *)
Definition sbB (m0 : list N) (n : N) (sb : strbuf) : Prop :=
  exists m', sb_buf sb = Some m' /\ sb_len sb = n /\ sb_at sb <= n /\ lenN m' = lenN m0 /\ dropN n m' = dropN n m0.
Lemma sbB_append m0 n sb f : n <= lenN m0 -> sbB m0 n sb -> bounded f -> exists sb', sb_append sb f = Ok sb' /\ sbB m0 n sb'.
Proof.
  intros Hn (m' & Hb & Hl & Hp & Hlen & Hdr) Hr.
  unfold sb_append. rewrite Hb. cbn [option_map].
  set (pos := match sb_pos sb with Some p => Some p | None => Some 0 end).
  assert (Epos : pos = Some (sb_at sb)) by (unfold pos, sb_at; destruct (sb_pos sb); reflexivity). rewrite Epos, Hl.
  set (ofs := sb_at sb) in *.
  destruct (Hr (dropN ofs m') (n - ofs)) as (t' & r & Et & Htl & Htd); [rewrite lenN_dropN; lia|].
  rewrite Et. cbn [bind]. eexists. split; [reflexivity|]. exists (takeN ofs m' ++ t'). cbn [sb_buf sb_len option_map].
  assert (Hlt : lenN (takeN ofs m') = ofs) by (apply lenN_takeN; lia).
  split; [reflexivity|]. split; [reflexivity|]. split; [|split].
  - unfold sb_at. cbn [sb_pos]. destruct (Z.ltb_spec r 0); cbn [orb]; [lia|]. destruct (Z.ltb_spec (Z.of_N (n - ofs)) r); lia.
  - rewrite lenN_app, Hlt, Htl, lenN_dropN. lia.
  - rewrite dropN_app_ge by lia. rewrite Hlt, Htd, dropN_dropN. rewrite <- Hdr. f_equal. lia.
Qed.
Lemma renders_bounded f s : renders f s -> bounded f.
Proof.
  intros H m n Hn. destruct (H m n Hn) as (m' & E & Hp). destruct (printed_len _ _ _ _ Hn Hp). exists m', (Z.of_N (lenN s)). auto.
Qed.

(* ---------------------------------------------------------------- the three modes at once *)
Inductive mode := MText | MNull | MSafe.
Definition Inv (md : mode) (m0 : list N) (n : N) (s : list N) (sb : strbuf) : Prop :=
  match md with MText => sbI m0 n s sb | MNull => sbM s sb | MSafe => sbB m0 n sb end.
Definition Good (md : mode) (f : strfn) (s : list N) : Prop :=
  match md with MText => renders f s | MNull => measures f s | MSafe => bounded f end.
Definition cb (md : mode) (m : list N) : cbuf := match md with MNull => None | _ => Some m end.
Definition cn (md : mode) (n : N) : N := match md with MNull => 0 | _ => n end.

Section Modes.
Variables (md : mode) (m0 : list N) (n : N).
Hypothesis Hn : n <= lenN m0.
Lemma inv_init : Inv md m0 n [] (sb_init (cb md m0) (cn md n)).
Proof.
  destruct md; [apply sbI_init, Hn|reflexivity|]. exists m0. repeat split. change (0 <= n). lia.
Qed.
Lemma inv_append s sb f t : Inv md m0 n s sb -> Good md f t -> exists sb', sb_append sb f = Ok sb' /\ Inv md m0 n (s ++ t) sb'.
Proof.
  intros HI HG. destruct md.
  - destruct (sbI_append _ _ _ _ _ _ Hn HI HG) as (sb' & E & H & _). eauto.
  - exact (sbM_append _ _ _ _ HI HG).
  - exact (sbB_append _ _ _ _ Hn HI HG).
Qed.
Lemma good_snprintf s : Good md (snprintf s) s.
Proof. destruct md; [apply snprintf_renders|apply snprintf_measures|apply (renders_bounded _ s), snprintf_renders]. Qed.
Lemma inv_printf s sb t : Inv md m0 n s sb -> exists sb', sb_printf sb t = Ok sb' /\ Inv md m0 n (s ++ t) sb'.
Proof. intros H. apply (inv_append _ _ _ _ H), good_snprintf. Qed.
(* "if (b) OSMO_STRBUF_PRINTF(sb, t)" *)
Lemma inv_printf_if (b : bool) s sb t : Inv md m0 n s sb ->
  exists sb', (if b then sb_printf sb t else Ok sb) = Ok sb' /\ Inv md m0 n (s ++ opt b t) sb'.
Proof. intros H. destruct b; cbn [opt]; [apply inv_printf, H|]. exists sb. rewrite app_nil_r. auto. Qed.
Lemma inv_printf_opt {A} (o : option A) g s sb : Inv md m0 n s sb ->
  exists sb', (match o with Some x => sb_printf sb (g x) | None => Ok sb end) = Ok sb'
    /\ Inv md m0 n (s ++ match o with Some x => g x | None => [] end) sb'.
Proof. intros H. destruct o; [apply inv_printf, H|]. exists sb. rewrite app_nil_r. auto. Qed.
End Modes.

Lemma good_intro md f s :
  (forall m0 n, n <= lenN m0 -> exists sb, f (cb md m0) (cn md n) = sb_return sb /\ Inv md m0 n s sb) -> Good md f s.
Proof.
  intros H. destruct md; cbn in *.
  - intros m n Hn. destruct (H m n Hn) as (sb & -> & HI). apply sbI_return, HI.
  - red. destruct (H [] 0) as (sb & -> & HI); [apply N.le_refl|]. apply sbM_return, HI.
  - intros m n Hn. destruct (H m n Hn) as (sb & -> & m' & Hb & _ & _ & H1 & H2). unfold sb_return. rewrite Hb. eauto 6.
Qed.

(* step through a sequence of OSMO_STRBUF_PRINTF() / _APPEND() *)
Ltac step :=
  match goal with
  | Hn : ?n <= lenN ?m0, HI : Inv ?md ?m0 ?n ?s ?sb |- context [bind (sb_printf ?sb ?t) _] =>
    let sb' := fresh "sb" in let E := fresh "E" in let HI' := fresh "HI" in
    destruct (inv_printf md m0 n Hn s sb t HI) as (sb' & E & HI'); rewrite E; clear E; cbn [bind]; clear HI
  | Hn : ?n <= lenN ?m0, HI : Inv ?md ?m0 ?n ?s ?sb |- context [bind (if ?b then sb_printf ?sb ?t else Ok ?sb) _] =>
    let sb' := fresh "sb" in let E := fresh "E" in let HI' := fresh "HI" in
    destruct (inv_printf_if md m0 n Hn b s sb t HI) as (sb' & E & HI'); rewrite E; clear E; cbn [bind]; clear HI
  | Hn : ?n <= lenN ?m0, HI : Inv ?md ?m0 ?n ?s ?sb |- context [bind (match ?o with Some x => sb_printf ?sb (@?t x) | None => Ok ?sb end) _] =>
    let sb' := fresh "sb" in let E := fresh "E" in let HI' := fresh "HI" in
    destruct (inv_printf_opt md m0 n Hn o t s sb HI) as (sb' & E & HI'); cbv beta in E, HI'; rewrite E; clear E; cbn [bind]; clear HI
  end.
Ltac step_app L :=
  match goal with
  | Hn : ?n <= lenN ?m0, HI : Inv ?md ?m0 ?n ?s ?sb |- context [bind (sb_append ?sb ?f) _] =>
    let sb' := fresh "sb" in let E := fresh "E" in let HI' := fresh "HI" in
    destruct (inv_append md m0 n Hn s sb f _ HI L) as (sb' & E & HI'); rewrite E; clear E; cbn [bind]; clear HI
  end.
Ltac start :=
  apply good_intro; let m0 := fresh "m0" in let n := fresh "n" in let Hn := fresh "Hn" in
  intros m0 n Hn; match goal with |- context [cb ?md _] => pose proof (inv_init md m0 n Hn) as HI0 end.
Ltac done_str := eexists; split; [reflexivity|]; match goal with H : Inv _ _ _ ?s ?sb |- Inv _ _ _ ?t ?sb =>
  replace t with s; [exact H|] end.

(* ---------------------------------------------------------------- simple functions *)
Lemma tag_inst_good md ti names : Good md (tag_inst_to_str ti names) (tag_inst_text ti names).
Proof. start. unfold tag_inst_to_str. step. step. done_str. reflexivity. Qed.

Section Pfcp.
Variable T : texts.
Variable md : mode.

Lemma addrs_good a : Good md (ip_addrs_to_str T a) (addrs_text T a).
Proof.
  start. unfold ip_addrs_to_str, addrs_text. destruct a as [p4 a4 p6 a6]; cbn [ia_v4p ia_v4 ia_v6p ia_v6].
  destruct p4, p6; cbn [orb andb negb]; rewrite ?bind_assoc.
  - step. step_app (good_snprintf md (tx_sa T a4)). step. rewrite ?bind_assoc. step. step_app (good_snprintf md (tx_sa T a6)). done_str.
    cbn [app]. rewrite <- !app_assoc. reflexivity.
  - step. step_app (good_snprintf md (tx_sa T a4)). cbn [bind]. done_str. reflexivity.
  - cbn [bind]. rewrite ?bind_assoc. step. step_app (good_snprintf md (tx_sa T a6)). done_str. reflexivity.
  - step. done_str. reflexivity.
Qed.
Lemma node_id_good x : Good md (node_id_to_str T x) (node_id_text T x).
Proof.
  start. unfold node_id_to_str, node_id_text. destruct x as [ip|ip|s|t].
  - step. step_app (good_snprintf md (tx_sa T ip)). done_str. reflexivity.
  - step. step_app (good_snprintf md (tx_sa T ip)). done_str. reflexivity.
  - step. step_app (good_snprintf md (tx_quote T s)). done_str. reflexivity.
  - step. done_str. reflexivity.
Qed.
Ltac norm_app := cbn [app]; rewrite <- ?app_assoc; cbn [app]; reflexivity.
Lemma f_seid_good x : Good md (f_seid_to_str T x) (f_seid_text T x).
Proof. start. unfold f_seid_to_str, f_seid_text. step. step_app (addrs_good (fs_addr x)). done_str. norm_app. Qed.
Lemma f_teid_good x : Good md (f_teid_to_str T x) (f_teid_text T x).
Proof.
  start. unfold f_teid_to_str, f_teid_text. destruct x as [teid a|v4 v6 idp id].
  - step. step_app (addrs_good a). done_str. norm_app.
  - step. step. step. step. done_str. norm_app.
Qed.

Lemma bits_get_set l i : i < 8 * lenN l -> bits_get l i = Ok (bit_is_set l i).
Proof.
  intros H. unfold bits_get, bit_is_set. assert (Hi : (N.to_nat (i / 8) < length l)%nat) by (unfold lenN in H; lia).
  destruct (nth_error l (N.to_nat (i / 8))) as [b|] eqn:E; [|apply nth_error_None in E; lia].
  rewrite (nth_error_nth _ _ _ E). f_equal. apply flag_bit.
Qed.
Lemma join_app sep a b : a <> [] -> b <> [] -> join sep (a ++ b) = join sep a ++ sep ++ join sep b.
Proof.
  intros Ha Hb. induction a as [|x a IH]; [contradiction|]. destruct a as [|y a].
  - destruct b; [contradiction|]. reflexivity.
  - cbn [app] in *. change (join sep (x :: y :: a ++ b)) with (x ++ sep ++ join sep (y :: a ++ b)).
    change (join sep (x :: y :: a)) with (x ++ sep ++ join sep (y :: a)). rewrite IH by discriminate. rewrite <- !app_assoc. reflexivity.
Qed.
Lemma bits_loop_good bits m0 n : n <= lenN m0 -> forall strs done sb,
  Forall (fun p => fst p < 8 * lenN bits) strs -> Inv md m0 n (join (str "+") done) sb ->
  exists sb', bits_loop bits strs sb (match done with [] => true | _ => false end)
    = Ok (sb', match done ++ map snd (filter (fun p => bit_is_set bits (fst p)) strs) with [] => true | _ => false end)
    /\ Inv md m0 n (join (str "+") (done ++ map snd (filter (fun p => bit_is_set bits (fst p)) strs))) sb'.
Proof.
  intros Hn. induction strs as [|[i nm] strs IH]; intros done sb HF HI; cbn [bits_loop filter map fst].
  { exists sb. rewrite app_nil_r. auto. }
  inversion HF as [|x l Hi HF']; subst. cbn [fst] in Hi. rewrite (bits_get_set _ _ Hi). cbn [bind].
  destruct (bit_is_set bits i); [|apply IH; assumption].
  match goal with |- context [sb_printf sb ?t] => destruct (inv_printf md m0 n Hn _ sb t HI) as (sb1 & E & HI1) end.
  rewrite E. cbn [bind]. destruct (IH (done ++ [nm]) sb1 HF') as (sb2 & E2 & HI2).
  { destruct done as [|d done]; cbn [app] in *; [exact HI1|].
    replace (join (str "+") (d :: done ++ [nm])) with (join (str "+") (d :: done) ++ str "+" ++ nm); [exact HI1|].
    change (d :: done ++ [nm]) with ((d :: done) ++ [nm]). rewrite join_app by discriminate. reflexivity. }
  exists sb2. rewrite <- app_assoc in E2, HI2. cbn [app map snd] in *. split; [|exact HI2].
  rewrite <- E2. f_equal. destruct done; reflexivity.
Qed.
Lemma bits_good bits strs : Forall (fun p => fst p < 8 * lenN bits) strs ->
  Good md (bits_to_str bits strs) (bits_text bits strs).
Proof.
  intros HF. start. unfold bits_to_str, bits_text. destruct (bits_loop_good bits m0 n Hn strs [] _ HF HI0) as (sb & E & HI).
  cbn iota in E. rewrite E. cbn [bind app]. cbn [app] in HI. clear E HI0.
  destruct (map snd (filter (fun p => bit_is_set bits (fst p)) strs)) as [|x l].
  - step. done_str. reflexivity.
  - cbn [bind]. exists sb. split; [reflexivity|exact HI].
Qed.
Lemma number_lt l : forall i k, i + lenN l <= k -> Forall (fun p => fst p < k) (number i l).
Proof.
  induction l as [|s l IH]; intros i k H; cbn [number]; constructor.
  - cbn [fst]. rewrite lenN_cons in H. lia.
  - apply IH. rewrite lenN_cons in H. lia.
Qed.

Lemma ohc_good x : length (oh_desc x) = 2%nat -> Good md (ohc_to_str T x) (ohc_text T x).
Proof.
  intros Hl. assert (HB : Good md (bits_to_str (oh_desc x) ohc_strs) (bits_text (oh_desc x) ohc_strs)).
  { apply bits_good, number_lt. unfold lenN. rewrite Hl. vm_compute. discriminate. }
  start. unfold ohc_to_str, ohc_text. step_app HB. step. step. step_app (addrs_good (oh_addr x)). step. step. step. done_str. norm_app.
Qed.
Lemma ohr_good x : length (or_ext x) = 1%nat -> Good md (ohr_to_str T x) (ohr_text T x).
Proof.
  intros Hl. start. unfold ohr_to_str, ohr_text. destruct (or_ext x) as [|e [|? ?]]; try discriminate. cbn [nth].
  step. step. done_str. norm_app.
Qed.
Lemma ue_ip_measures x : ue_chv4 x = false -> ue_chv6 x = false -> ue_dest x = false -> md = MNull ->
  Good md (ue_ip_to_str T x) (ue_ip_text T x).
Proof.
  intros H1 H2 H3 Hmd. start. unfold ue_ip_to_str, ue_ip_text. rewrite H1, H2, H3. cbn [bind app join].
  change (sb_pos (sb_init (cb md m0) (cn md n))) with (@None N). cbn [bind]. step_app (addrs_good (ue_addr x)). step. step. done_str. norm_app.
Qed.
End Pfcp.

(* UE IP Address, with a buffer: sb.pos is set by the first OSMO_STRBUF_PRINTF() *)
Definition ueI (m0 : list N) (n : N) (d : list N) (f : bool) (sb : strbuf) : Prop :=
  sbI m0 n d sb /\ (if f then sb_pos sb <> None else sb_pos sb = None).
Lemma ue_step m0 n d f sb (b : bool) w : n <= lenN m0 -> ueI m0 n d f sb ->
  exists sb', (if b then sb_printf sb w else Ok sb) = Ok sb' /\ ueI m0 n (d ++ opt b w) (f || b) sb'.
Proof.
  intros Hn [HI Hp]. destruct b; cbn [opt]; [|exists sb; rewrite app_nil_r, orb_false_r; split; [reflexivity|split; assumption]].
  destruct (sbI_printf m0 n _ sb w Hn HI) as (sb' & E & HI' & Hp'). exists sb'. split; [exact E|]. split; [exact HI'|]. rewrite orb_true_r. exact Hp'.
Qed.
Lemma ue_comma m0 n d f sb : ueI m0 n d f sb -> comma sb = str ",".
Proof. intros [(m' & E & _) _]. unfold comma. rewrite E. destruct (sb_pos sb); reflexivity. Qed.
Lemma ue_ip_renders T x : renders (ue_ip_to_str T x) (ue_ip_text T x).
Proof.
  apply (good_intro MText). intros m0 n Hn. cbn [cb cn Inv]. unfold ue_ip_to_str, ue_ip_text.
  assert (H0 : ueI m0 n [] false (sb_init (Some m0) n)) by (split; [apply sbI_init, Hn|reflexivity]).
  destruct (ue_step m0 n _ _ _ (ue_chv4 x) (str "chv4") Hn H0) as (sb1 & E1 & H1). rewrite E1. cbn [bind]. rewrite (ue_comma _ _ _ _ _ H1).
  destruct (ue_step m0 n _ _ _ (ue_chv6 x) (str "," ++ str "chv4") Hn H1) as (sb2 & E2 & H2). rewrite E2. cbn [bind]. rewrite (ue_comma _ _ _ _ _ H2).
  destruct (ue_step m0 n _ _ _ (ue_dest x) (str "," ++ str "dst") Hn H2) as (sb3 & E3 & H3). rewrite E3. cbn [bind]. cbn [app orb] in H3.
  change (str "," ++ str "chv4") with (str ",chv4") in H3. change (str "," ++ str "dst") with (str ",dst") in H3. destruct H3 as [HI Hp].
  assert (Hc : exists sb4, match sb_pos sb3 with Some _ => sb_printf sb3 (str ",") | None => Ok sb3 end = Ok sb4
    /\ Inv MText m0 n (((opt (ue_chv4 x) (str "chv4") ++ opt (ue_chv6 x) (str ",chv4")) ++ opt (ue_dest x) (str ",dst"))
        ++ opt (ue_chv4 x || ue_chv6 x || ue_dest x) (str ",")) sb4).
  { destruct (ue_chv4 x || ue_chv6 x || ue_dest x); cbn [opt].
    - destruct (sb_pos sb3); [|congruence]. destruct (sbI_printf m0 n _ sb3 (str ",") Hn HI) as (sb4 & E & H' & _). exists sb4. split; assumption.
    - rewrite Hp, app_nil_r. exists sb3. split; [reflexivity|exact HI]. }
  destruct Hc as (sb4 & E4 & H4). rewrite E4. cbn [bind]. clear E1 E2 E3 E4 H0 H1 H2 HI Hp.
  step_app (addrs_good T MText (ue_addr x)). step. step. eexists. split; [reflexivity|].
  match goal with H : Inv MText _ _ ?s ?sb |- sbI _ _ ?t ?sb => replace t with s; [exact H|] end.
  unfold opt; rewrite <- ?app_assoc; reflexivity.
Qed.

(* ---------------------------------------------------------------- IEs *)
Definition ok_in (md : mode) (k : kind) (v : iev) : Prop := printable k v /\ (md = MNull -> no_ue_flags k v).
Lemma ie_good T md k v : ok_in md k v -> Good md (ie_to_str T k v) (ie_text T k v).
Proof.
  intros [Hp Hu]. destruct k, v; cbn [printable] in Hp; try contradiction; cbn [ie_to_str ie_text]; try apply good_snprintf.
  - apply node_id_good.
  - apply bits_good, number_lt. unfold lenN. rewrite Hp. vm_compute. discriminate.
  - apply bits_good, number_lt. unfold lenN. rewrite Hp. vm_compute. discriminate.
  - apply f_seid_good.
  - apply f_teid_good.
  - apply bits_good, number_lt. unfold lenN. rewrite Hp. vm_compute. discriminate.
  - apply ohc_good, Hp.
  - apply ohr_good, Hp.
  - destruct md; [apply ue_ip_renders| |apply (renders_bounded _ (ue_ip_text T x)), ue_ip_renders].
    destruct (Hu eq_refl) as (? & ? & ?). apply ue_ip_measures; auto.
Qed.

(* ---------------------------------------------------------------- structs *)
Section Structs.
Context {V K : Type}.
Lemma tcoding_ind' (P : tcoding K -> Prop) :
  (forall h k, P (TLeaf h k)) -> (forall h ies, Forall P ies -> P (TNest h ies)) -> forall t, P t.
Proof.
  intros HL HN. fix IH 1. intros [h k|h ies]; [apply HL|]. apply HN.
  induction ies as [|d ies IHi]; constructor; [apply IH|exact IHi].
Qed.
Variable lf : K -> option (V -> strfn).
Variable lt : K -> V -> list N.
Variable names : N -> list N.
Variable P : K -> V -> Prop.
Variable md : mode.
Hypothesis leaf_good : forall k v, P k v -> match lf k with Some f => Good md (f v) (lt k v) | None => lt k v = str "(enc_to_str_func==NULL)" end.

(* counts are checked except for overflow freedom *)
Definition cnt : bool := match md with MSafe => false | _ => true end.

Definition put_good (t : tcoding K) : Prop := forall m0 n s sb v, n <= lenN m0 -> Inv md m0 n s sb -> val_fits cnt P t v ->
  exists sb', ts_put lf names t sb v = Ok sb' /\ Inv md m0 n (s ++ val_text lt names t v) sb'.

(* how a loop may end: the text is complete, or there are too many values *)
Definition ends (m0 : list N) (n : N) (s : list N) (too_many : bool) (r : res (strbuf + (cbuf * Z))) : Prop :=
  match r with
  | Ok (inl sb) => too_many = false /\ Inv md m0 n s sb
  | Ok (inr (b, rc)) => too_many = true /\ rc = ENOTSUP_rc /\ exists sb s', Inv md m0 n s' sb /\ b = sb_buf sb
  | _ => False
  end.

Lemma vals_good t m0 n : put_good t -> n <= lenN m0 -> forall vals s sb i,
  Inv md m0 n s sb -> Forall (val_fits cnt P t) vals ->
  (match h_multi (thead t) with Some (mx, _) => cnt = true -> i + lenN vals <= mx | None => True end) ->
  ends m0 n (s ++ (if 0 <? i then match vals with [] => [] | _ => str ", " end else []) ++ join (str ", ") (map (val_text lt names t) vals))
    (match h_multi (thead t) with Some (mx, _) => match vals with [] => false | _ => mx <? i + lenN vals end | None => false end)
    (ts_vals (tentry_of lf names t) sb i vals).
Proof.
  intros HP Hn. induction vals as [|v vals IH]; intros s sb i HI HF Hmx; cbn [ts_vals].
  { cbn [ends map join]. rewrite !app_nil_r. destruct (0 <? i); rewrite ?app_nil_r; split; try exact HI; destruct (h_multi (thead t)) as [[mx mn]|]; reflexivity. }
  rewrite lenN_cons in *. inversion HF as [|? ? Hv HF']; subst.
  change (te_h (tentry_of lf names t)) with (thead t) in *. change (te_put (tentry_of lf names t)) with (ts_put lf names t).
  destruct (match h_multi (thead t) with Some (mx, _) => mx <=? i | None => false end) eqn:Eo.
  { cbn [ends]. destruct (h_multi (thead t)) as [[mx mn]|]; [|discriminate]. apply N.leb_le in Eo.
    split; [apply N.ltb_lt; lia|]. split; [reflexivity|]. exists sb, s. auto. }
  destruct (inv_printf_if md m0 n Hn (0 <? i) s sb (str ", ") HI) as (sb1 & E1 & HI1). rewrite E1. cbn [bind].
  destruct (HP m0 n _ sb1 v Hn HI1 Hv) as (sb2 & E2 & HI2). rewrite E2. cbn [bind].
  specialize (IH _ sb2 (i + 1) HI2 HF').
  replace (0 <? i + 1) with true in IH by (symmetry; apply N.ltb_lt; lia). replace (i + 1 + lenN vals) with (i + (1 + lenN vals)) in IH by lia.
  match type of IH with ?A -> _ => assert (HA : A) by exact Hmx end. specialize (IH HA). clear HA.
  match goal with |- ends _ _ ?s1 ?b1 _ => match type of IH with ends _ _ ?s2 ?b2 _ => replace s1 with s2; [replace b1 with b2; [exact IH|]|] end end.
  - destruct (h_multi (thead t)) as [[mx mn]|]; [|reflexivity]. destruct vals; [|reflexivity]. rewrite lenN_nil.
    apply N.leb_gt in Eo. symmetry. apply N.ltb_ge. lia.
  - cbn [map]. rewrite <- !app_assoc. f_equal. unfold opt. destruct vals as [|v' vals]; cbn [map join app]; rewrite ?app_nil_r; [reflexivity|].
    rewrite <- ?app_assoc. reflexivity.
Qed.

Definition many (h : chead) (k : N) : bool := match h_multi h with Some (mx, _) => mx <? k | None => false end.
Fixpoint overf (ies : list (tcoding K)) (slots : list (slot V)) : bool :=
  match ies, slots with d :: ies', s :: slots' => many (thead d) (lenN s) || overf ies' slots' | _, _ => false end.
Lemma overf_overfull ies : forall slots, overf ies slots = true <-> overfull ies slots.
Proof.
  unfold overfull. induction ies as [|d ies IH]; intros [|s slots]; cbn [overf combine]; try (split; [discriminate|intros H; inversion H]).
  rewrite Exists_cons, orb_true_iff, IH. cbn [fst snd]. unfold many. destruct (h_multi (thead d)) as [[mx mn]|]; [rewrite N.ltb_lt; apply iff_refl|].
  split; (intros H; right; destruct H as [H|H]; [discriminate H || contradiction H|exact H]).
Qed.

Definition ended (m0 : list N) (n : N) (s : list N) (ov : bool) (r : res (cbuf * Z)) : Prop :=
  if ov then exists sb s', r = Ok (sb_buf sb, ENOTSUP_rc) /\ Inv md m0 n s' sb
  else exists sb, r = sb_return sb /\ Inv md m0 n s sb.

Lemma entries_good m0 n : n <= lenN m0 -> forall ies slots s sb, Forall put_good ies -> struct_fits cnt P ies slots ->
  Inv md m0 n s sb ->
  ended m0 n (s ++ struct_text lt names ies slots) (overf ies slots) (ts_entries names (map (tentry_of lf names) ies) slots sb).
Proof.
  intros Hn. induction ies as [|d ies IH]; intros slots s sb HP HF HI; cbn [map ts_entries].
  { inversion HF; subst. cbn [overf struct_text]. exists sb. rewrite app_nil_r. auto. }
  inversion HF as [|? sl ? slots' [Hc Hv] HF']; subst. inversion HP as [|? ? Hd HP']; subst.
  change (te_h (tentry_of lf names d)) with (thead d).
  assert (Eto : to_encode (thead d) sl = sl).
  { unfold to_encode, fits in *. destruct (h_multi (thead d)); [reflexivity|]. destruct sl as [|x [|y sl]]; try reflexivity.
    rewrite !lenN_cons in Hc. destruct (h_pres (thead d)); lia. }
  rewrite Eto. cbn [overf struct_text]. destruct sl as [|v0 sl].
  { cbn [map member_text app]. unfold many. rewrite lenN_nil. replace (match h_multi (thead d) with Some (mx, _) => mx <? 0 | None => false end) with false.
    - cbn [orb]. apply IH; assumption.
    - destruct (h_multi (thead d)) as [[mx mn]|]; [symmetry; apply N.ltb_ge; lia|reflexivity]. }
  set (vals := v0 :: sl) in *. cbv beta iota zeta.
  match goal with |- context [bind (sb_printf sb ?t) _] => destruct (inv_printf md m0 n Hn s sb t HI) as (sb1 & E1 & HI1) end.
  rewrite E1. cbn [bind].
  set (mu := match h_multi (thead d) with Some _ => true | None => false end).
  destruct (inv_printf_if md m0 n Hn mu _ sb1 (str "{ ") HI1) as (sb2 & E2 & HI2). rewrite E2. cbn [bind].
  pose proof (vals_good d m0 n Hd Hn vals _ sb2 0 HI2 Hv) as HV.
  match type of HV with ?A -> _ => assert (HA : A) end.
  { unfold fits in Hc. destruct (h_multi (thead d)) as [[mx mn]|]; [|exact I]. intros H. apply Hc in H. lia. }
  specialize (HV HA). clear HA. change (0 <? 0) with false in HV. cbn [app] in HV. rewrite N.add_0_l in HV.
  replace (match h_multi (thead d) with Some (mx, _) => match vals with [] => false | _ => mx <? lenN vals end | None => false end)
    with (many (thead d) (lenN vals)) in HV by (unfold many, vals; destruct (h_multi (thead d)) as [[mx mn]|]; reflexivity).
  destruct (ts_vals (tentry_of lf names d) sb2 0 vals) as [[sb3|[b rc]]|e|u]; cbn [ends bind] in *; try contradiction.
  - destruct HV as [-> HI3]. cbn [orb].
    destruct (inv_printf_if md m0 n Hn mu _ sb3 (str " }") HI3) as (sb4 & E4 & HI4). rewrite E4. cbn [bind].
    specialize (IH slots' _ sb4 HP' HF' HI4).
    match type of IH with ended _ _ ?a _ _ => match goal with |- ended _ _ ?b _ _ => replace b with a; [exact IH|] end end.
    unfold member_text, vals. cbn [map]. unfold mu, fits in *. destruct (h_multi (thead d)) as [[mx mn]|]; cbn [opt].
    + rewrite <- !app_assoc. reflexivity.
    + destruct sl as [|v1 sl]; [|unfold vals in Hc; rewrite !lenN_cons in Hc; destruct (h_pres (thead d)); lia]. cbn [map join]. rewrite ?app_nil_r, <- !app_assoc. reflexivity.
  - destruct HV as (-> & -> & sb3 & s' & HI3 & ->). cbn [orb ended]. exists sb3, s'. auto.
Qed.

Lemma struct_text_go ies slots :
  (fix go (ies : list (tcoding K)) (slots : list (slot V)) : list N :=
     match ies, slots with
     | d :: ies', s :: slots' => member_text names (thead d) (map (val_text lt names d) s) ++ go ies' slots'
     | _, _ => []
     end) ies slots = struct_text lt names ies slots.
Proof. reflexivity. Qed.
Lemma struct_fits_go c ies slots :
  (fix go (ies : list (tcoding K)) (slots : list (slot V)) : Prop :=
     match ies, slots with
     | [], [] => True
     | d :: ies', s :: slots' => fits c (thead d) (lenN s) /\ Forall (val_fits c P d) s /\ go ies' slots'
     | _, _ => False
     end) ies slots -> struct_fits c P ies slots.
Proof.
  revert slots. induction ies as [|d ies IH]; intros [|s slots]; try contradiction; [constructor|].
  intros (H1 & H2 & H3). constructor; [split; assumption|]. apply IH, H3.
Qed.
Lemma fits_not_over ies slots : cnt = true -> struct_fits cnt P ies slots -> overf ies slots = false.
Proof.
  intros Hc H. induction H as [|d s ies slots [H1 _] _ IH]; [reflexivity|]. cbn [overf]. rewrite IH, orb_false_r.
  unfold fits, many in *. destruct (h_multi (thead d)) as [[mx mn]|]; [|reflexivity]. apply N.ltb_ge, H1, Hc.
Qed.
Lemma nested_good ies slots : Forall put_good ies -> struct_fits cnt P ies slots ->
  Good md (fun b n => ts_entries names (map (tentry_of lf names) ies) slots (sb_init b n)) (struct_text lt names ies slots).
Proof.
  intros HP HF. assert (HG := fun m0 n Hn => entries_good m0 n Hn ies slots [] _ HP HF (inv_init md m0 n Hn)).
  cbn [app] in HG.
  assert (Hov : md <> MSafe -> overf ies slots = false).
  { intros H. apply fits_not_over; [|exact HF]. unfold cnt. destruct md; [reflexivity|reflexivity|contradiction]. }
  assert (Hw : md <> MSafe -> Good md (fun b n => ts_entries names (map (tentry_of lf names) ies) slots (sb_init b n)) (struct_text lt names ies slots)).
  { intros H. apply good_intro. intros m0 n Hn. specialize (HG m0 n Hn). rewrite (Hov H) in HG. exact HG. }
  clear Hov. revert HG Hw. unfold ended, Inv, Good, cb, cn. clear. destruct md; intros HG Hw; [apply Hw; discriminate|apply Hw; discriminate|].
  intros m n Hn. specialize (HG m n Hn). destruct (overf ies slots).
  - destruct HG as (sb & s' & -> & m' & Hb & _ & _ & H1 & H2). rewrite Hb. eauto 6.
  - destruct HG as (sb & -> & m' & Hb & _ & _ & H1 & H2). unfold sb_return. rewrite Hb. eauto 6.
Qed.
Lemma all_put_good t : put_good t.
Proof.
  induction t as [h k|h ies IH] using tcoding_ind'; intros m0 n s sb v Hn HI Hf; destruct v as [x|slots]; cbn [val_fits] in Hf; try contradiction;
    cbn [ts_put val_text].
  - specialize (leaf_good k x Hf). destruct (lf k) as [f|].
    + apply (inv_append md m0 n Hn _ _ _ _ HI leaf_good).
    + rewrite leaf_good. apply inv_printf; assumption.
  - apply struct_fits_go in Hf. destruct (inv_printf md m0 n Hn _ sb (str "{") HI) as (sb1 & E1 & HI1). rewrite E1. cbn [bind].
    change (map (fun d => mkTEntry (thead d) (ts_put lf names d)) ies) with (map (tentry_of lf names) ies).
    destruct (inv_append md m0 n Hn _ sb1 _ _ HI1 (nested_good ies slots IH Hf)) as (sb2 & E2 & HI2). rewrite E2. cbn [bind].
    destruct (inv_printf md m0 n Hn _ sb2 (str " }") HI2) as (sb3 & E3 & HI3). exists sb3. split; [exact E3|].
    rewrite struct_text_go. rewrite <- !app_assoc in HI3. exact HI3.
Qed.
Lemma gtlvs_good ies slots : struct_fits cnt P ies slots ->
  Good md (gtlvs_to_str lf names (Some ies) slots) (struct_text lt names ies slots).
Proof. intros H. apply nested_good; [|exact H]. apply Forall_forall. intros t _. apply all_put_good. Qed.
(* the return value *)
Lemma gtlvs_over ies slots m n : n <= lenN m -> struct_fits cnt P ies slots -> md <> MNull ->
  (overfull ies slots -> exists m', gtlvs_to_str lf names (Some ies) slots (Some m) n = Ok (Some m', ENOTSUP_rc))
  /\ (~ overfull ies slots -> exists m' k, gtlvs_to_str lf names (Some ies) slots (Some m) n = Ok (Some m', Z.of_N k)).
Proof.
  intros Hn HF Hmd. assert (HP : Forall put_good ies) by (apply Forall_forall; intros t _; apply all_put_good).
  assert (HG := entries_good m n Hn ies slots [] _ HP HF (inv_init md m n Hn)). unfold ended in HG.
  rewrite <- overf_overfull. cbn [gtlvs_to_str]. replace (cb md m) with (Some m) in HG by (destruct md; [reflexivity|contradiction|reflexivity]).
  replace (cn md n) with n in HG by (destruct md; [reflexivity|contradiction|reflexivity]). destruct (overf ies slots).
  - split; [intros _|intros H; contradiction]. destruct HG as (sb & s' & -> & HI). destruct md; [|contradiction|].
    + destruct HI as (m' & Hb & _). rewrite Hb. eauto.
    + destruct HI as (m' & Hb & _). rewrite Hb. eauto.
  - split; [discriminate|intros _]. destruct HG as (sb & -> & HI). unfold sb_return. destruct md; [|contradiction|].
    + destruct HI as (m' & Hb & _). rewrite Hb. eauto.
    + destruct HI as (m' & Hb & _). rewrite Hb. eauto.
Qed.
End Structs.

Lemma gtlvs_no_overflow {V K} (lf : K -> option (V -> strfn)) names (P : K -> V -> Prop) ies slots :
  (forall k v f, P k v -> lf k = Some f -> bounded (f v)) -> struct_fits false P ies slots ->
  bounded (gtlvs_to_str lf names (Some ies) slots)
  /\ forall m n, n <= lenN m -> exists m' r, gtlvs_to_str lf names (Some ies) slots (Some m) n = Ok (Some m', r)
       /\ ((r < 0)%Z <-> overfull ies slots).
Proof.
  intros H HF.
  assert (HL : forall k v, P k v -> match lf k with Some f => Good MSafe (f v) ((fun _ _ => str "(enc_to_str_func==NULL)") k v)
    | None => (fun _ _ => str "(enc_to_str_func==NULL)") k v = str "(enc_to_str_func==NULL)" end)
    by (intros k v Hp; destruct (lf k) as [f|] eqn:E; [exact (H k v f Hp E)|reflexivity]).
  split; [exact (gtlvs_good lf _ names P MSafe HL ies slots HF)|]. intros m n Hn.
  destruct (gtlvs_over lf _ names P MSafe HL ies slots m n Hn HF ltac:(discriminate)) as [Ho Hno].
  pose proof (overf_overfull ies slots) as Hov. destruct (overf ies slots).
  - destruct (Ho (proj1 Hov eq_refl)) as [m' E]. exists m', ENOTSUP_rc. split; [exact E|]. split; [intros _; apply Hov; reflexivity|intros _; reflexivity].
  - assert (Hn' : ~ overfull ies slots) by (intros G; apply Hov in G; discriminate).
    destruct (Hno Hn') as (m' & k & E). exists m', (Z.of_N k). split; [exact E|]. split; [lia|contradiction].
Qed.

(* ---------------------------------------------------------------- messages *)
Lemma msg_good T md m ies : get_msg_coding (hd_type (m_h m)) = Some ies ->
  struct_fits (cnt md) (ok_in md) (map ttab ies) (m_ies m) -> Good md (msg_to_str T m) (msg_text T ies m).
Proof.
  intros Ec HF. start. unfold msg_to_str, msg_text, msg_hdr_text. step.
  step. step. step.
  assert (HG : Good md (ies_to_str T (hd_type (m_h m)) (m_ies m)) (struct_text (ie_text T) (tx_iei T) (map ttab ies) (m_ies m))).
  { unfold ies_to_str. rewrite Ec. cbn [option_map]. apply (gtlvs_good _ _ _ (ok_in md)); [|exact HF]. intros k v. apply ie_good. }
  step_app HG. step. done_str. cbn [app]. unfold opt_num_text. rewrite <- ?app_assoc. cbn [app]. rewrite <- ?app_assoc. reflexivity.
Qed.

Lemma msg_log_good T md m fi cause : Good md (msg_log_info T m fi cause)
  (match m with None => str "NULL" | Some m => log_text T m fi cause end).
Proof.
  start. unfold msg_log_info. destruct m as [m|]; [|step; done_str; reflexivity].
  assert (Hfi : exists sb, match fi with Some (name, state) => sb_printf (sb_init (cb md m0) (cn md n)) (name ++ str "{" ++ state ++ str "}: ")
    | None => sb_append (sb_init (cb md m0) (cn md n)) (snprintf (tx_sa T (m_remote m))) end = Ok sb
    /\ Inv md m0 n (match fi with Some (name, state) => name ++ str "{" ++ state ++ str "}: " | None => tx_sa T (m_remote m) end) sb).
  { destruct fi as [[name state]|]; [apply (inv_printf md m0 n Hn [] _ _ HI0)|apply (inv_append md m0 n Hn [] _ _ _ HI0), good_snprintf]. }
  destruct Hfi as (sb & E & HI). rewrite E. cbn [bind]. clear E HI0. step. step. step. step. done_str.
  unfold log_text, opt_num_text. rewrite <- !app_assoc. reflexivity.
Qed.

(* a message type without table: the IEs and the closing brace are missing in the text, but counted *)
Lemma msg_unsupported T m m0 n : get_msg_coding (hd_type (m_h m)) = None -> n <= lenN m0 ->
  exists m', msg_to_str T m (Some m0) n = Ok (Some m', Z.of_N (lenN (msg_hdr_text T (m_h m)) + 2)) /\ printed (msg_hdr_text T (m_h m)) n m0 m'.
Proof.
  intros Ec Hn. unfold msg_to_str. pose proof (inv_init MText m0 n Hn) as HI0. cbn [cb cn] in HI0.
  step. step. step. step. match goal with H : Inv MText m0 n ?s ?sb |- _ => replace s with (msg_hdr_text T (m_h m)) in H; [rename H into HI; rename sb into sb4|] end.
  2: { unfold msg_hdr_text, opt_num_text. cbn [app]. rewrite <- ?app_assoc. cbn [app]. rewrite <- ?app_assoc. reflexivity. }
  destruct HI as (m' & Hb & Hl & Hnd & Hp & Hpr). destruct (printed_len _ _ _ _ Hn Hpr) as [Hlen _].
  exists m'. split; [|exact Hpr]. unfold sb_append at 1. rewrite Hb. cbn [option_map]. unfold ies_to_str. rewrite Ec. cbn [option_map gtlvs_to_str bind].
  change (ENOTSUP_rc <? 0)%Z with true. cbn [orb]. change (0 <? ENOTSUP_rc)%Z with false. rewrite Hl.
  rewrite takeN_dropN. unfold sb_printf, sb_append. cbn [sb_buf sb_len sb_pos sb_needed option_map]. rewrite N.sub_diag.
  change (snprintf (str " }") (Some (dropN n m')) 0) with (Ok (A := cbuf * Z) (Some (dropN n m'), 2%Z)). cbn [bind].
  rewrite takeN_dropN. unfold sb_return. cbn [sb_buf sb_needed]. rewrite Hnd. reflexivity.
Qed.

(* ---------------------------------------------------------------- the _c variants *)
Lemma printed_full s n m m' : n <= lenN m -> lenN s < n -> s <> [] -> printed s n m m' -> c_string m' s.
Proof.
  intros Hn Hs H0 Hp. unfold printed in Hp. destruct (N.eqb_spec n 0); [lia|]. destruct Hp as (z & -> & Hz).
  replace (N.min (n - 1) (lenN s)) with (lenN s) by lia. rewrite takeN_all by lia. destruct Hz as [->|[? _]]; [|contradiction]. eexists. reflexivity.
Qed.
Lemma name_c_full_k init e f s k m1 m2 :
  (forall m n, n <= lenN m -> exists m', f (Some m) n = Ok (Some m', Z.of_N k) /\ printed s n m m') -> lenN s <= k ->
  s <> [] -> lenN m1 = init -> (forall l, lenN (m2 l) = l) ->
  exists m, name_c_impl init e f m1 m2 = Ok m /\ c_string m s.
Proof.
  intros Hr Hk H0 H1 H2. unfold name_c_impl. destruct (Hr m1 init) as (b1 & E1 & P1); [lia|]. rewrite E1. cbn [bind].
  destruct (Z.ltb_spec (Z.of_N k) 0); [lia|]. destruct (Z.ltb_spec (Z.of_N k) (Z.of_N init)).
  - exists b1. split; [reflexivity|]. apply (printed_full s init m1 b1); [lia|lia|assumption|assumption].
  - rewrite N2Z.id. destruct (Hr (m2 (k + 1)) (k + 1)) as (b2 & E2 & P2); [rewrite H2; lia|]. rewrite E2. cbn [bind].
    destruct (Z.ltb_spec (Z.of_N k) 0); [lia|].
    exists b2. split; [reflexivity|]. apply (printed_full s (k + 1) (m2 (k + 1)) b2); [rewrite H2; lia|lia|assumption|assumption].
Qed.
Lemma name_c_full init e f s m1 m2 : renders f s -> s <> [] -> lenN m1 = init -> (forall l, lenN (m2 l) = l) ->
  exists m, name_c_impl init e f m1 m2 = Ok m /\ c_string m s.
Proof. intros Hr. apply (name_c_full_k init e f s (lenN s)); [exact Hr|apply N.le_refl]. Qed.
Lemma val_fits_impl {V K} (c c' : bool) (P Q : K -> V -> Prop) : (c' = true -> c = true) -> (forall k v, P k v -> Q k v) ->
  forall t v, val_fits c P t v -> val_fits c' Q t v.
Proof.
  intros Hc HPQ. induction t as [h k|h l IH] using tcoding_ind'; intros [x|slots]; cbn [val_fits]; try contradiction; [apply HPQ|].
  revert slots. induction l as [|d l IHl]; intros [|s slots]; try contradiction; [trivial|]. inversion IH as [|? ? Hd Hl]; subst.
  intros (Ha & Hb & Hr). split; [|split; [revert Hb; apply Forall_impl; exact Hd|apply IHl; assumption]].
  unfold fits in *. destruct (h_multi (thead d)) as [[mx mn]|]; [|exact Ha]. intros G. apply Ha, Hc, G.
Qed.
Lemma struct_fits_impl {V K} (c c' : bool) (P Q : K -> V -> Prop) ies slots : (c' = true -> c = true) -> (forall k v, P k v -> Q k v) ->
  struct_fits c P ies slots -> struct_fits c' Q ies slots.
Proof.
  intros Hc HPQ. apply Forall2_impl. intros d s [Ha Hb]. split.
  - unfold fits in *. destruct (h_multi (thead d)) as [[mx mn]|]; [|exact Ha]. intros G. apply Ha, Hc, G.
  - revert Hb. apply Forall_impl. intros v. apply val_fits_impl; assumption.
Qed.
Lemma msg_c_full T m init m1 m2 : lenN m1 = init -> (forall l, lenN (m2 l) = l) ->
  match get_msg_coding (hd_type (m_h m)) with Some ies => struct_fits true printable (map ttab ies) (m_ies m) | None => True end ->
  exists mem, to_str_c init (msg_to_str T m) m1 m2 = Ok mem
    /\ c_string mem (match get_msg_coding (hd_type (m_h m)) with Some ies => msg_text T ies m | None => msg_hdr_text T (m_h m) end).
Proof.
  intros H1 H2 HF. unfold to_str_c. destruct (get_msg_coding (hd_type (m_h m))) as [ies|] eqn:Ec.
  - apply name_c_full; [|discriminate|exact H1|exact H2]. apply (msg_good T MText m ies Ec).
    revert HF. apply struct_fits_impl; [auto|]. intros k v H. split; [exact H|discriminate].
  - apply (name_c_full_k _ _ _ _ (lenN (msg_hdr_text T (m_h m)) + 2)); [|lia|discriminate|exact H1|exact H2].
    intros m0 n Hn. apply msg_unsupported; assumption.
Qed.

(* ---------------------------------------------------------------- "%u" *)
Lemma dec_acc d : forall p, fold_left (fun a c => 10 * a + (c - 48)) (dec_chars d) (Npos p) = Npos (Pos.of_uint_acc d p).
Proof.
  induction d; intros p; cbn [dec_chars fold_left Pos.of_uint_acc]; [reflexivity|..]; rewrite <- IHd; f_equal; unfold Pos.of_uint_acc; lia.
Qed.
Lemma dec_of_uint d : dec_value (dec_chars d) = N.of_uint d.
Proof.
  unfold dec_value, N.of_uint. induction d; cbn [dec_chars fold_left Pos.of_uint]; [reflexivity|exact IHd|..]; apply dec_acc.
Qed.
Lemma pf_u_value n : dec_value (pf_u n) = n.
Proof. unfold pf_u. rewrite dec_of_uint. apply DecimalN.Unsigned.of_to. Qed.
Lemma dec_digits d : Forall (fun c => 48 <= c <= 57) (dec_chars d).
Proof. induction d; cbn [dec_chars]; constructor; try assumption; lia. Qed.
Lemma hex_acc d : forall p, fold_left (fun a c => 16 * a + hex_digit c) (hex_chars d) (Npos p) = Npos (Pos.of_hex_uint_acc d p).
Proof.
  induction d; intros p; cbn [hex_chars fold_left Pos.of_hex_uint_acc]; [reflexivity|..]; rewrite <- IHd; f_equal;
    match goal with |- context [hex_digit ?c] => let v := eval vm_compute in (hex_digit c) in change (hex_digit c) with v end; lia.
Qed.
Lemma hex_of_uint d : hex_value (hex_chars d) = N.of_hex_uint d.
Proof.
  unfold hex_value, N.of_hex_uint. induction d; cbn [hex_chars fold_left Pos.of_hex_uint]; [reflexivity|exact IHd|..]; apply hex_acc.
Qed.
Lemma pf_x_value n : hex_value (pf_x n) = n.
Proof. unfold pf_x. rewrite hex_of_uint. apply HexadecimalN.Unsigned.of_to. Qed.
Lemma hex_digits d : Forall (fun c => 48 <= c <= 57 \/ 97 <= c <= 102) (hex_chars d).
Proof. induction d; cbn [hex_chars]; constructor; try assumption; lia. Qed.
Lemma unorm_head d l : dec_chars (Decimal.unorm d) = 48 :: l -> l = [].
Proof. induction d; cbn [Decimal.unorm dec_chars]; intros H; try discriminate H; [injection H as <-; reflexivity|apply IHd, H]. Qed.
Lemma pf_u_head n l : pf_u n = 48 :: l -> l = [].
Proof.
  unfold pf_u. intros H. apply (unorm_head (N.to_uint n)). rewrite <- H. rewrite <- DecimalN.Unsigned.to_of, DecimalN.Unsigned.of_to. reflexivity.
Qed.
Lemma unorm_hex_head d l : hex_chars (Hexadecimal.unorm d) = 48 :: l -> l = [].
Proof. induction d; cbn [Hexadecimal.unorm hex_chars]; intros H; try discriminate H; [injection H as <-; reflexivity|apply IHd, H]. Qed.
Lemma pf_x_head n l : pf_x n = 48 :: l -> l = [].
Proof.
  unfold pf_x. intros H. apply (unorm_hex_head (N.to_hex_uint n)). rewrite <- H.
  rewrite <- HexadecimalN.Unsigned.to_of, HexadecimalN.Unsigned.of_to. reflexivity.
Qed.

(* ---------------------------------------------------------------- bit names are unambiguous *)
Lemma split_at {c : N} {x y u v : list N} : ~ In c x -> ~ In c y -> x ++ c :: u = y ++ c :: v -> x = y /\ u = v.
Proof.
  revert y. induction x as [|a x IH]; intros [|b y] Hx Hy H; cbn [app] in H.
  - injection H as ->. auto.
  - injection H as -> _. exfalso. apply Hy. left. reflexivity.
  - injection H as -> _. exfalso. apply Hx. left. reflexivity.
  - injection H as -> H. destruct (IH y) as [-> ->]; [intros G; apply Hx; right; exact G|intros G; apply Hy; right; exact G|exact H|auto].
Qed.
Definition word (c : N) (w : list N) : Prop := w <> [] /\ ~ In c w.
Lemma join_inj c a : forall b, Forall (word c) a -> Forall (word c) b -> join [c] a = join [c] b -> a = b.
Proof.
  induction a as [|x a IH]; intros [|y b] Ha Hb H.
  - reflexivity.
  - exfalso. inversion Hb as [|? ? [Hy _] _]; subst. destruct b; cbn in H; [congruence|]. destruct y; [congruence|discriminate].
  - exfalso. inversion Ha as [|? ? [Hx _] _]; subst. destruct a; cbn in H; [congruence|]. destruct x; [congruence|discriminate].
  - inversion Ha as [|? ? [Hx Hx'] Ha']; inversion Hb as [|? ? [Hy Hy'] Hb']; subst.
    destruct a as [|x2 a], b as [|y2 b].
    + cbn in H. congruence.
    + exfalso. apply Hx'. change (x = y ++ c :: join [c] (y2 :: b)) in H. rewrite H. apply in_or_app. right. left. reflexivity.
    + exfalso. apply Hy'. change (x ++ c :: join [c] (x2 :: a) = y) in H. rewrite <- H. apply in_or_app. right. left. reflexivity.
    + change (x ++ c :: join [c] (x2 :: a) = y ++ c :: join [c] (y2 :: b)) in H. destruct (split_at Hx' Hy' H) as [-> H2].
      f_equal. apply IH; assumption.
Qed.
Lemma filter_names (l : list (N * list N)) (p q : N * list N -> bool) : NoDup (map snd l) ->
  map snd (filter p l) = map snd (filter q l) -> forall x, In x l -> p x = q x.
Proof.
  intros Hd H x Hx.
  assert (Hin : forall r, In (snd x) (map snd (filter r l)) <-> r x = true).
  { intros r. split.
    - intros Hi. apply in_map_iff in Hi. destruct Hi as (y & Ey & Hy). apply filter_In in Hy. destruct Hy as [Hy Hr].
      assert (y = x); [|subst; exact Hr].
      clear - Hd Hx Hy Ey. induction l as [|z l IH]; [contradiction|]. cbn [map] in Hd. inversion Hd as [|? ? Hn Hd']; subst.
      destruct Hx as [->|Hx], Hy as [->|Hy]; [reflexivity|..].
      + exfalso. apply Hn. rewrite <- Ey. apply in_map, Hy.
      + exfalso. apply Hn. rewrite Ey. apply in_map, Hx.
      + apply IH; assumption.
    - intros Hr. apply in_map, filter_In. auto. }
  pose proof (Hin p) as H1. pose proof (Hin q) as H2. rewrite H in H1. destruct (p x), (q x); try reflexivity; exfalso.
  - assert (false = true) by (apply H2, H1; reflexivity). discriminate.
  - assert (false = true) by (apply H1, H2; reflexivity). discriminate.
Qed.
(* names usable in the '+' notation *)
Definition good_names (strs : list (N * list N)) : Prop :=
  NoDup (map snd strs) /\ Forall (word 43) (map snd strs) /\ ~ In [45] (map snd strs).
Lemma bits_text_inj strs a b : good_names strs -> bits_text a strs = bits_text b strs ->
  forall i nm, In (i, nm) strs -> bit_is_set a i = bit_is_set b i.
Proof.
  intros (Hd & Hw & Hm) H i nm Hin. unfold bits_text in H.
  assert (Hf : forall c, Forall (word 43) (map snd (filter (fun p => bit_is_set c (fst p)) strs))).
  { intros c. rewrite Forall_forall in Hw. apply Forall_forall. intros w Hi. apply Hw. apply in_map_iff in Hi. destruct Hi as (y & <- & Hy).
    apply filter_In in Hy. apply in_map, Hy. }
  assert (Hsub : forall c w, In w (map snd (filter (fun p => bit_is_set c (fst p)) strs)) -> w <> [45]).
  { intros c w Hi ->. apply Hm. apply in_map_iff in Hi. destruct Hi as (y & <- & Hy). apply filter_In in Hy. apply in_map, Hy. }
  assert (E : map snd (filter (fun p => bit_is_set a (fst p)) strs) = map snd (filter (fun p => bit_is_set b (fst p)) strs)).
  { assert (G : forall c, ~ (map snd (filter (fun p => bit_is_set c (fst p)) strs) <> []
                            /\ str "-" = join (str "+") (map snd (filter (fun p => bit_is_set c (fst p)) strs)))).
    { intros c [Hne Hj]. apply (join_inj 43 [[45]]) in Hj; [|constructor; [split; [discriminate|intros [G|[]]; discriminate]|constructor]|apply Hf].
      apply (Hsub c [45]); [|reflexivity]. rewrite <- Hj. left. reflexivity. }
    pose proof (G a) as Ga. pose proof (G b) as Gb. pose proof (Hf a) as Fa. pose proof (Hf b) as Fb.
    destruct (map snd (filter (fun p => bit_is_set a (fst p)) strs)) as [|x la], (map snd (filter (fun p => bit_is_set b (fst p)) strs)) as [|y lb].
    - reflexivity.
    - exfalso. apply Gb. split; [discriminate|exact H].
    - exfalso. apply Ga. split; [discriminate|symmetry; exact H].
    - apply (join_inj 43); assumption. }
  exact (filter_names strs _ _ Hd E (i, nm) Hin).
Qed.
Definition good_namesb (strs : list (N * list N)) : bool :=
  let l := map snd strs in
  forallb (fun w => negb (match w with [] => true | _ => false end) && negb (existsb (N.eqb 43) w)) l
  && negb (existsb (fun w => if list_eq_dec N.eq_dec w [45] then true else false) l)
  && if Nat.eqb (length (nodup (list_eq_dec N.eq_dec) l)) (length l) then true else false.
Lemma good_names_dec strs : good_namesb strs = true -> good_names strs.
Proof.
  unfold good_namesb, good_names. intros H. apply andb_true_iff in H. destruct H as [H H3]. apply andb_true_iff in H. destruct H as [H1 H2].
  split; [|split].
  - dif_in H3 E; [|discriminate]. apply Nat.eqb_eq in E. clear - E. set (l := map snd strs) in *. clearbody l.
    induction l as [|x l IH]; [constructor|]. cbn [nodup] in E. destruct (in_dec (list_eq_dec N.eq_dec) x l) as [Hi|Hi].
    + exfalso. assert (length (nodup (list_eq_dec N.eq_dec) l) <= length l)%nat by (apply NoDup_incl_length; [apply NoDup_nodup|intros z Hz; apply nodup_In in Hz; exact Hz]).
      cbn [length] in E. lia.
    + constructor; [exact Hi|]. apply IH. cbn [length] in E. lia.
  - apply Forall_forall. intros w Hw. rewrite forallb_forall in H1. apply H1, andb_true_iff in Hw. destruct Hw as [Ha Hb]. split.
    + intros ->. discriminate.
    + intros Hi. apply negb_true_iff in Hb. assert (Ht : existsb (N.eqb 43) w = true) by (apply existsb_exists; exists 43; split; [exact Hi|reflexivity]). congruence.
  - intros Hi. apply negb_true_iff in H2. match type of H2 with ?b = false => assert (Ht : b = true) end; [|congruence].
    apply existsb_exists. exists [45]. split; [exact Hi|]. destruct (list_eq_dec N.eq_dec [45] [45]); [reflexivity|contradiction].
Qed.
Lemma number_in l : forall i j, i <= j < i + lenN l -> exists nm, In (j, nm) (number i l).
Proof.
  induction l as [|s l IH]; intros i j H; [rewrite lenN_nil in H; lia|]. rewrite lenN_cons in H. cbn [number].
  destruct (N.eq_dec i j) as [->|Hn]; [exists (str s); left; reflexivity|]. destruct (IH (i + 1) j) as [nm Hi]; [lia|]. exists nm. right. exact Hi.
Qed.
Lemma names_faithful l a b : good_namesb (number 0 l) = true -> bits_text a (number 0 l) = bits_text b (number 0 l) ->
  forall i, i < lenN l -> bit_is_set a i = bit_is_set b i.
Proof.
  intros Hg H i Hi. destruct (number_in l 0 i) as [nm Hin]; [lia|]. exact (bits_text_inj _ _ _ (good_names_dec _ Hg) H i nm Hin).
Qed.

Lemma ok_text k v : printable k v -> ok_in MText k v.
Proof. intros H. split; [exact H|]. intros E. discriminate E. Qed.
Lemma ok_safe k v : printable k v -> ok_in MSafe k v.
Proof. intros H. split; [exact H|]. intros E. discriminate E. Qed.
Lemma ok_null k v : printable k v /\ no_ue_flags k v -> ok_in MNull k v.
Proof. intros [H1 H2]. split; [exact H1|intros _; exact H2]. Qed.

Lemma names_faithful' strs l n a b : strs = number 0 l -> n = lenN l -> good_namesb strs = true -> bits_text a strs = bits_text b strs ->
  forall i, i < n -> bit_is_set a i = bit_is_set b i.
Proof. intros -> ->. apply names_faithful. Qed.
Lemma all_faithful a b :
  (bits_text a up_feature_strs = bits_text b up_feature_strs -> forall i, i < 40 -> bit_is_set a i = bit_is_set b i)
  /\ (bits_text a cp_feature_strs = bits_text b cp_feature_strs -> forall i, i < 8 -> bit_is_set a i = bit_is_set b i)
  /\ (bits_text a apply_action_strs = bits_text b apply_action_strs -> forall i, i < 11 -> bit_is_set a i = bit_is_set b i)
  /\ (bits_text a ohc_strs = bits_text b ohc_strs -> forall i, i < 10 -> bit_is_set a i = bit_is_set b i).
Proof.
  split; [|split; [|split]]; (eapply names_faithful'; [reflexivity|reflexivity|vm_compute; reflexivity]).
Qed.
