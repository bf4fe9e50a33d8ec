(* RtProofs.v -- struct encode / decode round trip (C14, C15), ordered mandatory check (C16), encoder (C17) *)
From Verif Require Import Base BaseProofs GtlvModel GtlvSpec GtlvProofs DecEncModel DecEncSpec DecEncProofs DecOrdProofs DecCharProofs.

(* ---------------------------------------------------------------- a loader in front of well-formed items *)
Record ahead (c : cfg) (d rest : list N) (g : load) (items : list item) : Prop := {
  ah_mem : ld_mem g = d ++ rest;
  ah_len : ld_srclen g = lenN d;
  ah_pos : ld_pos g <= lenN d;
  ah_items : parsed c (dropN (ld_pos g) d) = (items, Ok tt)
}.
(* the loader's current item *)
Record cur (g : load) (rest : list N) (it : item) : Prop := {
  cu_ti : ld_ti g = fst it;
  cu_len : ld_len g = lenN (snd it);
  cu_val : exists v r, ld_val g = Some v /\ dropN v (ld_mem g) = snd it ++ r ++ rest
}.

Lemma ahead_nil c d rest g : ahead c d rest g [] ->
  load_next c g = (mkLoad (ld_mem g) (ld_srclen g) (ld_ti g) (ld_len g) None, Ok tt).
Proof.
  intros [Hm Hl Hp Hi]. rewrite load_next_rem by (rewrite Hl; exact Hp). cbv zeta. rewrite Hl.
  unfold parsed in Hi. cbn [pitems] in Hi. rewrite lenN_dropN in Hi.
  dif E0; [reflexivity|]. dif_in Hi E1; [discriminate|].
  destruct (cfg_load c _ _) as [[[ti len] h]|e|u] in Hi; try discriminate. dif_in Hi E2; [discriminate|].
  destruct (pitems _ c _ _) in Hi. discriminate.
Qed.

Lemma ahead_cons c d rest g it items : cfg_ok c -> ahead c d rest g (it :: items) ->
  exists g', load_next c g = (g', Ok tt) /\ ahead c d rest g' items /\ cur g' rest it /\ ld_pos g < ld_pos g'.
Proof.
  intros Hok [Hm Hl Hp Hi]. rewrite load_next_rem by (rewrite Hl; exact Hp). cbv zeta. rewrite Hl, Hm.
  unfold parsed in Hi. cbn [pitems] in Hi. rewrite lenN_dropN in Hi.
  dif E0; [discriminate|]. dif_in Hi E1; [discriminate|].
  rewrite dropN_app_le by exact Hp. rewrite (ok_local c Hok) by (rewrite ?lenN_dropN; lia).
  pose proof (ok_load c Hok (dropN (ld_pos g) d) (lenN d - ld_pos g) ltac:(rewrite lenN_dropN; lia) ltac:(lia)) as Hld.
  pose proof (ok_min c Hok) as Hmin.
  destruct (cfg_load c _ _) as [[[ti len] h]|e|u]; try discriminate. dif_in Hi E2; [discriminate|].
  rewrite !dropN_dropN in Hi.
  replace (lenN d - ld_pos g - (h + len)) with (lenN (dropN (ld_pos g + (h + len)) d)) in Hi by (rewrite lenN_dropN; lia).
  destruct (pitems (length (dropN (ld_pos g) d)) c _ _) as [l st] eqn:Ep. inversion Hi; subst; clear Hi.
  eexists. split; [reflexivity|]. split; [|split].
  - split; cbn [ld_mem ld_srclen]; auto; unfold ld_pos at 1; cbn [ld_val ld_len]; [lia|].
    unfold parsed. rewrite <- Ep. replace (ld_pos g + h + len) with (ld_pos g + (h + len)) by lia.
    apply pitems_fuel; [exact Hok|lia|].
    pose proof (lenN_dropN (ld_pos g) d). pose proof (lenN_dropN (ld_pos g + (h + len)) d). unfold lenN in *. lia.
  - split; cbn [ld_mem ld_srclen ld_ti ld_len ld_val fst snd]; auto.
    + rewrite lenN_takeN; [reflexivity|]. rewrite lenN_dropN. lia.
    + exists (ld_pos g + h), (dropN (h + len) (dropN (ld_pos g) d)). split; [reflexivity|].
      rewrite dropN_app_le by lia. rewrite app_assoc. f_equal. rewrite <- (takeN_dropN len (dropN (ld_pos g + h) d)) at 1.
      rewrite !dropN_dropN. f_equal. f_equal. lia.
  - unfold ld_pos at 2; cbn [ld_val ld_len]. lia.
Qed.

Lemma ahead_by_tag_loop c d rest ti : cfg_ok c -> forall items fuel g, ahead c d rest g items -> (length items < fuel)%nat ->
  match first_match ti items with
  | None => by_tag_loop fuel c g ti = Err ENOENT
  | Some (_, x, b) => exists g', by_tag_loop fuel c g ti = Ok g' /\ ahead c d rest g' b /\ cur g' rest x /\ ld_pos g < ld_pos g'
  end.
Proof.
  intros Hok. induction items as [|it items IH]; intros fuel g Ha Hf; (destruct fuel as [|f]; [cbn in Hf; lia|]); cbn [first_match by_tag_loop].
  - rewrite (ahead_nil _ _ _ _ Ha). reflexivity.
  - destruct (ahead_cons _ _ _ _ _ _ Hok Ha) as (g1 & -> & Ha1 & Hc1 & Hp1).
    destruct (cu_val _ _ _ Hc1) as (v & r & -> & _). rewrite (cu_ti _ _ _ Hc1).
    destruct (ti_match (fst it) ti); [eauto 6|].
    specialize (IH f g1 Ha1 ltac:(cbn in Hf; lia)). destruct (first_match ti items) as [[[a x] b]|]; [|exact IH].
    destruct IH as (g2 & H1 & H2 & H3 & H4). exists g2. repeat split; try assumption; try apply H2; try apply H3. lia.
Qed.

Lemma pitems_length c : cfg_ok c -> forall f m left, lenN m = left -> (length (fst (pitems f c m left)) <= N.to_nat left)%nat.
Proof.
  intros Hok. pose proof (ok_min c Hok) as Hmin. induction f as [|f IH]; intros m left Hl; cbn [pitems fst length]; [lia|].
  dif E0; [cbn; lia|]. dif E1; [cbn; lia|].
  pose proof (ok_load c Hok m left ltac:(lia) ltac:(lia)) as Hld.
  destruct (cfg_load c m left) as [[[ti len] h]|e|u]; try (cbn; lia). dif E2; [cbn; lia|].
  specialize (IH (dropN (h + len) m) (left - (h + len)) ltac:(rewrite lenN_dropN; lia)).
  destruct (pitems f c _ _) as [l st]. cbn [fst length] in *. lia.
Qed.

Lemma ahead_length c d rest g items : cfg_ok c -> ahead c d rest g items -> (length items <= N.to_nat (lenN d - ld_pos g))%nat.
Proof.
  intros Hok [Hm Hl Hp Hi]. unfold parsed in Hi.
  pose proof (pitems_length c Hok (S (length (dropN (ld_pos g) d))) (dropN (ld_pos g) d) _ eq_refl) as H.
  rewrite Hi in H. cbn [fst] in H. rewrite lenN_dropN in H. exact H.
Qed.

Lemma ahead_by_tag c d rest ti g items : cfg_ok c -> ahead c d rest g items ->
  match first_match ti items with
  | None => load_next_by_tag_inst c g ti = (g, Err ENOENT)
  | Some (_, x, b) => exists g', load_next_by_tag_inst c g ti = (g', Ok tt) /\ ahead c d rest g' b /\ cur g' rest x /\ ld_pos g < ld_pos g'
  end.
Proof.
  intros Hok Ha. pose proof (ahead_length _ _ _ _ _ Hok Ha) as Hlen.
  pose proof (ahead_by_tag_loop c d rest ti Hok items (budget (ld_mem g) (ld_srclen g)) g Ha) as H.
  unfold load_next_by_tag_inst. rewrite (ah_mem _ _ _ _ _ Ha), (ah_len _ _ _ _ _ Ha), budget_app in *.
  specialize (H ltac:(unfold lenN in *; lia)).
  destruct (first_match ti items) as [[[a x] b]|]; [|rewrite H; reflexivity].
  destruct H as (g' & H1 & H2). exists g'. rewrite H1. auto.
Qed.

Lemma ahead_peek c d rest g items : cfg_ok c -> ahead c d rest g items ->
  load_peek_tag c g = match items with [] => Err ENOENT | it :: _ => Ok (fst it) end.
Proof.
  intros Hok Ha. pose proof (peek_next c g) as Hpk. destruct items as [|it items].
  - rewrite (ahead_nil _ _ _ _ Ha) in Hpk. exact Hpk.
  - destruct (ahead_cons _ _ _ _ _ _ Hok Ha) as (g1 & Hn & Ha1 & Hc1 & Hp1). rewrite Hn in Hpk.
    destruct (cu_val _ _ _ Hc1) as (v & r & Hv & _). rewrite Hv, (cu_ti _ _ _ Hc1) in Hpk. exact Hpk.
Qed.

Lemma ahead_start c d rest items : parsed c d = (items, Ok tt) -> ahead c d rest (load_start (d ++ rest) (lenN d)) items.
Proof.
  intros H. split; try reflexivity; unfold ld_pos; cbn [load_start ld_val]; [lia|rewrite dropN_0; exact H].
Qed.

Section Rt.
Context {V : Type}.
Implicit Types (es : list (entry V)) (slots : list (slot V)) (cd : coding V) (c : cfg).

(* ---------------------------------------------------------------- wire form -> items *)
Lemma parsed_hdr c ti v h : cfg_ok c -> header_repr c ti (lenN v) h ->
  exists ti', ti_match ti ti' = true /\
    forall d, parsed c (h ++ v ++ d) = let '(l, st) := parsed c d in ((ti', v) :: l, st).
Proof.
  intros Hok (_ & _ & (ti' & Hti & Hld) & H1 & Hmin). exists ti'. split; [rewrite ti_match_sym; exact Hti|]. intros d.
  unfold parsed at 1. cbn [pitems]. rewrite !lenN_app.
  dif E0; [lia|]. dif E1; [lia|]. rewrite Hld by lia. dif E2; [lia|].
  rewrite (dropN_app h), takeN_app. rewrite app_assoc, (dropN_app' _ (h ++ v) d) by (rewrite lenN_app; reflexivity).
  replace (lenN h + (lenN v + lenN d) - (lenN h + lenN v)) with (lenN d) by lia. unfold parsed.
  rewrite (pitems_fuel c Hok _ (S (length d))); [reflexivity| |lia]. rewrite !app_length. unfold lenN in H1. lia.
Qed.

Lemma parsed_tlvs c ti (vbs bss : list (list N)) : cfg_ok c -> Forall2 (fun vb b => tlv_repr c ti vb b) vbs bss ->
  exists its, Forall (fun it : item => ti_match ti (fst it) = true) its /\ map snd its = vbs /\
    forall d, parsed c (concat bss ++ d) = let '(l, st) := parsed c d in (its ++ l, st).
Proof.
  intros Hok H. induction H as [|vb b vbs bss (h & Hh & ->) H (its & I1 & I2 & I3)].
  - exists []. repeat split; auto. intros d. cbn [concat app]. destruct (parsed c d); reflexivity.
  - destruct (parsed_hdr c ti vb h Hok Hh) as (ti' & Ht & Hp). exists ((ti', vb) :: its). repeat split.
    + constructor; assumption.
    + cbn. rewrite I2. reflexivity.
    + intros d. cbn [concat]. rewrite <- !app_assoc, Hp, I3. destruct (parsed c d) as [l st]. reflexivity.
Qed.

Lemma val_repr_nest Tail h nc o ies c slots bs :
  val_repr (V := V) Tail (CNest h nc o ies) c (VStruct slots) bs
  <-> struct_repr Tail (match nc with Some x => x | None => c end) ies slots bs.
Proof.
  cbn [val_repr]. set (c' := match nc with Some x => x | None => c end). clearbody c'.
  revert slots bs. induction ies as [|d ies IH]; intros [|s slots] bs; cbn [struct_repr]; try tauto.
  split; intros (b1 & b2 & H1 & H2 & H3 & H4); exists b1, b2; repeat split; auto; apply IH; assumption.
Qed.

Lemma concat_split (R : val V -> list N -> list N -> Prop) s bss :
  Forall2 (fun v b => exists vb, R v vb b) s bss -> exists vbs, All3 R s vbs bss.
Proof.
  intros H. induction H as [|v b s bss (vb & Hr) H (vbs & IH)]; [exists []; constructor|].
  exists (vb :: vbs). constructor; assumption.
Qed.

Lemma struct_repr_items Tail c ies slots bs : cfg_ok c -> struct_repr (V := V) Tail c ies slots bs ->
  exists itss, All3 (fun d s (its : list item) => count_ok (head d) (lenN s)
        /\ Forall (fun it : item => ti_match (h_ti (head d)) (fst it) = true) its
        /\ Forall2 (fun it v => val_repr Tail d c v (snd it)) its s) ies slots itss
    /\ forall d, parsed c (bs ++ d) = let '(l, st) := parsed c d in (concat itss ++ l, st).
Proof.
  intros Hok. revert slots bs. induction ies as [|d ies IH]; intros [|s slots] bs H; cbn [struct_repr] in H; try contradiction.
  - subst. exists []. split; [constructor|]. intros d. cbn [concat app]. destruct (parsed c d); reflexivity.
  - destruct H as (b1 & b2 & -> & Hc & (bss & Hb & ->) & H2). destruct (IH _ _ H2) as (itss & I1 & I2).
    destruct (concat_split (fun v vb b => val_repr Tail d c v vb /\ tlv_repr c (h_ti (head d)) vb b) s bss Hb) as (vbs & H3).
    destruct (parsed_tlvs c (h_ti (head d)) vbs bss Hok) as (its & J1 & J2 & J3).
    { clear - H3. induction H3 as [|v vb b s vbs bss [_ Hr] H3 IH]; constructor; auto. }
    exists (its :: itss). split.
    + constructor; [|exact I1]. repeat split; auto. subst vbs. clear - H3. revert s bss H3. induction its as [|it its IH]; intros s bss H3; inversion H3; subst; constructor.
      * tauto.
      * eapply IH; eassumption.
    + intros x. rewrite <- app_assoc, J3, I2. destruct (parsed c x) as [l st]. cbn [concat]. rewrite app_assoc. reflexivity.
Qed.

(* ---------------------------------------------------------------- ordered decoding of items in table order *)
Definition part Tail c (o : bool) (d : coding V) (s : slot V) (its : list item) : Prop :=
  count_ok (head d) (lenN s)
  /\ Forall (fun it : item => ti_match (h_ti (head d)) (fst it) = true) its
  /\ Forall2 (fun (it : item) v => forall r, Tail r -> dec_coding d c o (snd it ++ r) (lenN (snd it)) = Ok v) its s.

Lemma others_nomatch Tail c o (d : coding V) (ies : list (coding V)) slots itss :
  Forall (fun d' => ti_match (h_ti (head d)) (h_ti (head d')) = false) ies ->
  All3 (part Tail c o) ies slots itss ->
  Forall (fun it : item => ti_match (h_ti (head d)) (fst it) = false) (concat itss).
Proof.
  intros Hd H. revert Hd. induction H as [|d' s its ies slots itss (Hc & Ht & _) H IH]; intros Hd; cbn [concat]; [constructor|].
  inversion Hd; subst. apply Forall_app. split; [|auto].
  eapply Forall_impl; [|exact Ht]. cbn. intros it Hit. destruct (ti_match (h_ti (head d)) (fst it)) eqn:E; [|reflexivity].
  rewrite ti_match_sym in Hit. rewrite (ti_match_trans _ _ _ E Hit) in *. discriminate.
Qed.

Lemma ord_inner Tail c d rest (e : coding V) es slots items2 slots2 :
  cfg_ok c -> tail_closed Tail -> Tail rest ->
  Forall (fun it : item => ti_match (h_ti (head e)) (fst it) = false) items2 ->
  (forall fuel g, (length es + length items2 < fuel)%nat -> ahead c d rest g items2 -> ord_loop fuel MOuter c es g slots = Ok slots2) ->
  forall vs its it v s0 fuel g,
  count_ok (head e) (lenN (s0 ++ v :: vs)) ->
  Forall (fun it : item => ti_match (h_ti (head e)) (fst it) = true) (it :: its) ->
  Forall2 (fun (it : item) v => forall r, Tail r -> dec_coding e c true (snd it ++ r) (lenN (snd it)) = Ok v) (it :: its) (v :: vs) ->
  (h_multi (head e) = None -> s0 = []) ->
  ahead c d rest g (its ++ items2) -> cur g rest it ->
  (S (length es) + length (its ++ items2) < fuel)%nat ->
  ord_loop fuel MInner c (entry_of e :: es) g (s0 :: slots) = Ok ((s0 ++ v :: vs) :: slots2).
Proof.
  intros Hok Htc Hr Hno Hout. induction vs as [|v2 vs IH]; intros its it v s0 fuel g Hc Ht Hdec Hs0 Ha Hcu Hf.
  - inversion Hdec as [|? ? ? ? Hd1 Hd2]; subst. inversion Hd2; subst. cbn [app] in *.
    destruct fuel as [|f]; [lia|]. cbn [ord_loop]. cbn [e_h entry_of e_dec].
    assert (Hnf : match h_multi (head e) with Some (mx, _) => mx <=? lenN s0 | None => false end = false).
    { apply count_ok_cap in Hc. unfold cap_of in Hc. rewrite lenN_app, lenN_cons, lenN_nil in Hc.
      destruct (h_multi (head e)) as [[mx mand]|]; [|reflexivity]. destruct (h_pres (head e)); lia. }
    rewrite Hnf. destruct (cu_val _ _ _ Hcu) as (w & r & Hv & Hm). rewrite Hv, Hm, (cu_len _ _ _ Hcu).
    rewrite Hd1 by (apply Htc, Hr). cbn [bind].
    rewrite (ahead_peek _ _ _ _ _ Hok Ha), (cu_ti _ _ _ Hcu).
    rewrite Hout by (assumption || lia). cbn [bind].
    destruct (h_multi (head e)) as [[mx mand]|] eqn:Em.
    + destruct items2 as [|it2 items2]; [reflexivity|].
      inversion Ht as [|? ? Ht1 _]; subst. inversion Hno as [|? ? Hn1 _]; subst.
      assert (E : ti_match (fst it2) (fst it) = false).
      { destruct (ti_match (fst it2) (fst it)) eqn:E; [|reflexivity]. rewrite ti_match_sym in E. rewrite (ti_match_trans _ _ _ Ht1 E) in Hn1. discriminate. }
      rewrite E. cbn [negb]. reflexivity.
    + rewrite (Hs0 eq_refl). reflexivity.
  - inversion Hdec as [|? ? its0 ? Hd1 Hd2]; subst. inversion Hd2 as [|it2 ? its2 ? Hd3 Hd4]; subst.
    inversion Ht as [|? ? Ht1 Ht2]; subst. inversion Ht2 as [|? ? Ht3 Ht4]; subst.
    destruct fuel as [|f]; [lia|]. cbn [ord_loop]. cbn [e_h entry_of e_dec].
    assert (Hm1 : exists mx mand, h_multi (head e) = Some (mx, mand) /\ lenN s0 + 2 <= mx).
    { apply count_ok_cap in Hc. unfold cap_of in Hc. rewrite lenN_app, !lenN_cons in Hc.
      destruct (h_multi (head e)) as [[mx mand]|]; [exists mx, mand; split; [reflexivity|]; destruct (h_pres (head e)); lia|lia]. }
    destruct Hm1 as (mx & mand & Hm1 & Hmx). rewrite Hm1.
    destruct (N.leb_spec mx (lenN s0)); [lia|].
    destruct (cu_val _ _ _ Hcu) as (w & r & Hv & Hm). rewrite Hv, Hm, (cu_len _ _ _ Hcu).
    rewrite Hd1 by (apply Htc, Hr). cbn [bind].
    rewrite (ahead_peek _ _ _ _ _ Hok Ha), (cu_ti _ _ _ Hcu). cbn [app].
    assert (E : ti_match (fst it2) (fst it) = true) by (rewrite ti_match_sym in Ht3; exact (ti_match_trans _ _ _ Ht3 Ht1)).
    rewrite E. cbn [negb].
    destruct (ahead_cons _ _ _ _ _ _ Hok Ha) as (g' & -> & Ha' & Hcu' & _).
    rewrite (IH its2 it2 v2 (s0 ++ [v]) f g').
    + rewrite <- app_assoc. reflexivity.
    + rewrite <- app_assoc. exact Hc.
    + constructor; assumption.
    + constructor; assumption.
    + intros Hx. rewrite Hm1 in Hx. discriminate.
    + exact Ha'.
    + exact Hcu'.
    + cbn [app length] in Hf. lia.
Qed.

Lemma first_match_none_app ti a b : Forall (fun it : item => ti_match (fst it) ti = false) a -> first_match ti (a ++ b) = match first_match ti b with Some (x, y, z) => Some (a ++ x, y, z) | None => None end.
Proof.
  induction 1 as [|it a Hit Ha IH]; cbn [app first_match]; [destruct (first_match ti b) as [[[? ?] ?]|]; reflexivity|].
  rewrite Hit, IH. destruct (first_match ti b) as [[[? ?] ?]|]; reflexivity.
Qed.

Lemma ord_parts Tail c d rest : cfg_ok c -> tail_closed Tail -> Tail rest ->
  forall ies slots itss, All3 (part Tail c true) ies slots itss -> es_distinct (map entry_of ies) ->
  forall fuel g, (length ies + length (concat itss) < fuel)%nat -> ahead c d rest g (concat itss) ->
  ord_loop fuel MOuter c (map entry_of ies) g (map (fun _ => []) ies) = Ok slots.
Proof.
  intros Hok Htc Hr ies slots itss H. induction H as [|e s its ies slots itss HP H IH]; intros Hd fuel g Hf Ha.
  - destruct fuel; [lia|]. reflexivity.
  - cbn [map es_distinct] in Hd. destruct Hd as [Hd1 Hd2]. rewrite Forall_map in Hd1. cbn [entry_of e_h] in Hd1.
    pose proof (others_nomatch _ _ _ _ _ _ _ Hd1 H) as Hno. destruct HP as (Hc & Ht & Hdec).
    destruct fuel as [|f]; [lia|]. cbn [map concat length] in *. cbn [ord_loop]. cbn [e_h entry_of].
    pose proof (ahead_by_tag c d rest (h_ti (head e)) g _ Hok Ha) as Hb.
    destruct its as [|it its].
    + inversion Hdec; subst. cbn [app] in *.
      assert (Hfm : first_match (h_ti (head e)) (concat itss) = None).
      { apply first_match_none. eapply Forall_impl; [|exact Hno]. cbn. intros x Hx. rewrite ti_match_sym. exact Hx. }
      rewrite Hfm in Hb. rewrite Hb. rewrite lenN_nil.
      apply count_ok_cap in Hc. destruct Hc as [_ Hlow]. unfold low_of in Hlow. change (lenN (@nil (val V))) with 0 in Hlow.
      assert (E : negb (h_pres (head e)) && match h_multi (head e) with Some (_, mand) => 0 <? mand | None => true end = false).
      { destruct (h_pres (head e)); [reflexivity|]. cbn [negb andb]. destruct (h_multi (head e)) as [[mx mand]|]; [lia|]. lia. }
      rewrite E. rewrite IH; [destruct (h_pres (head e)); reflexivity|assumption|lia|assumption].
    + inversion Hdec as [|? v ? vs Hd3 Hd4]; subst. cbn [app first_match] in *.
      inversion Ht as [|? ? Ht1 Ht2]; subst. rewrite ti_match_sym in Ht1. rewrite Ht1 in Hb.
      destruct Hb as (g' & -> & Ha' & Hcu & _).
      rewrite (ord_inner Tail c d rest e (map entry_of ies) (map (fun _ => []) ies) (concat itss) slots Hok Htc Hr Hno) with (vs := vs) (its := its) (it := it) (v := v) (s0 := []); auto.
      * intros fuel' g2 Hf2 Ha2. apply IH; auto. rewrite map_length in Hf2. exact Hf2.
      * rewrite map_length. cbn [length] in Hf. lia.
Qed.

Lemma members_of_parts Tail c rest : Tail rest -> forall ies slots itss, All3 (part Tail c false) ies slots itss -> es_distinct (map entry_of ies) ->
  forall pre, Forall (fun it : item => Forall (fun d => ti_match (h_ti (head d)) (fst it) = false) ies) pre ->
  Forall2 (member_of c rest (pre ++ concat itss)) ies slots.
Proof.
  intros Hr ies slots itss H. induction H as [|e s its ies slots itss HP H IH]; intros Hd pre Hpre; [constructor|].
  cbn [map es_distinct] in Hd. destruct Hd as [Hd1 Hd2]. rewrite Forall_map in Hd1. cbn [entry_of e_h] in Hd1.
  pose proof (others_nomatch _ _ _ _ _ _ _ Hd1 H) as Hno. destruct HP as (Hc & Ht & Hdec).
  assert (FN : forall l, Forall (fun it : item => ti_match (h_ti (head e)) (fst it) = false) l -> items_for e l = []).
  { clear. intros l Hl. induction Hl as [|it l Hit Hl IH]; [reflexivity|]. unfold items_for in *. cbn [filter]. rewrite Hit. exact IH. }
  assert (FA : forall l, Forall (fun it : item => ti_match (h_ti (head e)) (fst it) = true) l -> items_for e l = l).
  { clear. intros l Hl. induction Hl as [|it l Hit Hl IH]; [reflexivity|]. unfold items_for in *. cbn [filter]. rewrite Hit. exact (f_equal (cons it) IH). }
  constructor.
  - split; [exact Hc|]. cbn [concat]. assert (FAP : forall a b, items_for e (a ++ b) = items_for e a ++ items_for e b) by (intros; apply filter_app).
    rewrite !FAP.
    rewrite (FN pre), (FA its), (FN (concat itss)); [|exact Hno|exact Ht|].
    + cbn [app]. rewrite app_nil_r. eapply Forall2_impl; [|exact Hdec]. cbn. intros it v Hv. apply Hv, Hr.
    + eapply Forall_impl; [|exact Hpre]. cbn. intros it Hit. inversion Hit; assumption.
  - cbn [concat]. rewrite app_assoc. apply IH; [exact Hd2|]. apply Forall_app. split.
    + eapply Forall_impl; [|exact Hpre]. cbn. intros it Hit. inversion Hit; assumption.
    + rewrite Forall_forall in Ht |- *. intros it Hit. specialize (Ht it Hit).
      eapply Forall_impl; [|exact Hd1]. cbn. intros d' Hd'. destruct (ti_match (h_ti (head d')) (fst it)) eqn:E; [|reflexivity].
      rewrite ti_match_sym in E. rewrite (ti_match_trans _ _ _ Ht E) in Hd'. discriminate.
Qed.



Lemma entries_rt Tail c o ies slots bs rest : cfg_ok c -> tail_closed Tail -> Tail rest -> table_ok ies ->
  Forall (all_leaves (leaf_local Tail)) ies -> Forall (all_cfgs cfg_ok) ies ->
  Forall (fun d => forall v bs, val_repr Tail d c v bs -> forall o rest, Tail rest -> dec_coding d c o (bs ++ rest) (lenN bs) = Ok v) ies ->
  struct_repr Tail c ies slots bs ->
  decode_entries c o (map entry_of ies) (bs ++ rest) (lenN bs) = Ok slots.
Proof.
  intros Hok Htc Hr (Hd & Hmx & Hsm) Hl Hc Hrt Hs.
  destruct (struct_repr_items Tail c ies slots bs Hok Hs) as (itss & H1 & H2).
  specialize (H2 []). rewrite !app_nil_r in H2. change (parsed c []) with (@nil item, Ok tt) in H2. cbv iota beta in H2. rewrite app_nil_r in H2.
  assert (HP : forall o, All3 (part Tail c o) ies slots itss).
  { clear - H1 Hrt. intros o. induction H1 as [|d s its ies slots itss (A & B & C) H1 IH]; constructor.
    - split; [exact A|]. split; [exact B|]. eapply Forall2_impl; [|exact C]. cbn. intros it v Hv r Hr. inversion Hrt; subst. auto.
    - apply IH. inversion Hrt; assumption. }
  destruct o; cbn [decode_entries].
  - unfold decode_ordered. rewrite budget_app, map_length, map_map.
    pose proof (ahead_start c bs rest _ H2) as Ha. pose proof (ahead_length _ _ _ _ _ Hok Ha) as Hlen.
    eapply ord_parts; eauto using distinct_es. unfold lenN in Hlen. unfold ld_pos in Hlen. cbn [load_start ld_val] in Hlen. lia.
  - change (gtlvs_decode c false (Some ies) (bs ++ rest) (lenN bs) = Ok slots).
    apply (decode_unordered_iff Tail); auto. exists (concat itss). split.
    + rewrite parse_parsed by exact Hok. rewrite H2. reflexivity.
    + apply (members_of_parts Tail c rest Hr ies slots itss (HP false) (distinct_es _ Hd) []). constructor.
Qed.

Lemma dec_coding_rt Tail : tail_closed Tail -> forall cd,
  all_leaves (leaf_local Tail) cd -> all_cfgs cfg_ok cd -> tables table_ok cd ->
  forall c, cfg_ok c -> forall v bs, val_repr Tail cd c v bs -> forall o rest, Tail rest -> dec_coding cd c o (bs ++ rest) (lenN bs) = Ok v.
Proof.
  intros Htc. induction cd as [h l|h nc o ies IH] using coding_ind'; intros Hl Hc Ht c Hok v bs Hv o' rest Hr.
  - destruct v as [x|slots]; [|contradiction]. cbn [val_repr] in Hv. destruct Hv as [_ (d & Hd & Hx)].
    cbn. rewrite Hd, Hx by exact Hr. reflexivity.
  - destruct v as [x|slots]; [contradiction|]. apply val_repr_nest in Hv.
    cbn [all_leaves all_cfgs tables] in *. destruct Hc as [Hc1 Hc2]. destruct Ht as [Ht1 Ht2]. rewrite fold_right_and_Forall in Hl, Hc2, Ht2.
    cbn. change (map (fun d => mkEntry (head d) (dec_coding d)) ies) with (map entry_of ies).
    assert (Hok' : cfg_ok (match nc with Some x => x | None => c end)) by (destruct nc; assumption).
    rewrite (entries_rt Tail _ _ ies slots bs rest); auto.
    rewrite Forall_forall in *. intros d Hd. apply IH; auto.
Qed.

Theorem gtlvs_decode_rt Tail c o ies slots bs rest : cfg_ok c -> tail_closed Tail -> Tail rest ->
  Forall (all_leaves (leaf_local Tail)) ies -> Forall (all_cfgs cfg_ok) ies -> all_tables table_ok ies ->
  struct_repr Tail c ies slots bs ->
  gtlvs_decode c o (Some ies) (bs ++ rest) (lenN bs) = Ok slots.
Proof.
  intros Hok Htc Hr Hl Hc [Ht1 Ht2] Hs. cbn [gtlvs_decode]. apply (entries_rt Tail); auto.
  rewrite Forall_forall in *. intros d Hd. apply dec_coding_rt; auto.
Qed.

(* ---------------------------------------------------------------- encoding *)
Lemma enc_vals_repr Tail c (d : coding V) mxd :
  (forall v bs cap buf, val_repr Tail d c v bs -> lenN buf + lenN bs <= cap -> enc_coding d c cap buf v = EOk (buf ++ bs)) ->
  match h_multi (head d) with Some (mx, _) => mxd = mx | None => True end ->
  forall s bss, Forall2 (fun v b => exists vb, val_repr Tail d c v vb /\ tlv_repr c (h_ti (head d)) vb b) s bss ->
  forall buf cap last i, lenN buf + lenN (concat bss) <= cap -> (h_multi (head d) <> None -> i + lenN s <= mxd) ->
  exists last', enc_vals c (eentry_of d) (mkPut buf cap last) i s = POk (mkPut (buf ++ concat bss) cap last').
Proof.
  intros He Hm s bss H. induction H as [|v b s bss (vb & Hv & h & (Hst & Hst0 & _ & Hh1 & _) & ->) H IH]; intros buf cap last i Hcap Hi.
  - cbn. rewrite app_nil_r. eauto.
  - cbn [concat] in Hcap. rewrite !lenN_app in Hcap. rewrite lenN_cons in Hi. cbn [enc_vals]. unfold put_tli, tailroom. cbn [pt_buf pt_cap pt_last ee_h eentry_of].
    destruct (Hst0 (cap - lenN buf) ltac:(lia)) as (h0 & -> & Hl0). cbn [pt_buf pt_cap].
    destruct (N.ltb_spec (cap - lenN buf) (lenN h0)); [lia|].
    assert (Hnf : match h_multi (head d) with Some (mx, _) => mx <=? i | None => false end = false).
    { destruct (h_multi (head d)) as [[mx mand]|]; [|reflexivity]. specialize (Hi ltac:(discriminate)). lia. }
    rewrite Hnf. cbn [ee_enc eentry_of pt_buf pt_cap pt_last]. rewrite (He v vb) by (assumption || (rewrite lenN_app; lia)).
    unfold put_update_tl. cbn [pt_last pt_buf pt_cap].
    replace (lenN buf + lenN h0 - lenN buf) with (lenN h) by lia.
    replace (lenN ((buf ++ h0) ++ vb) - (lenN buf + lenN h0)) with (lenN vb) by (rewrite !lenN_app; lia).
    rewrite Hst by lia. rewrite <- app_assoc, overwrite_mid by exact Hl0.
    destruct (IH (buf ++ h ++ vb) cap (Some (h_ti (head d), lenN buf, lenN buf + lenN h)) (i + 1)) as (last' & HI).
    + rewrite !lenN_app. lia.
    + intros Hx. specialize (Hi Hx). lia.
    + rewrite HI. exists last'. cbn [concat]. rewrite <- !app_assoc. reflexivity.
Qed.

Lemma enc_entries_repr Tail c (ies : list (coding V)) :
  Forall (fun d => forall v bs cap buf, val_repr Tail d c v bs -> lenN buf + lenN bs <= cap -> enc_coding d c cap buf v = EOk (buf ++ bs)) ies ->
  forall slots bs buf cap last, struct_repr Tail c ies slots bs -> lenN buf + lenN bs <= cap ->
  exists last', enc_entries c (map eentry_of ies) (mkPut buf cap last) slots = POk (mkPut (buf ++ bs) cap last').
Proof.
  intros Hf. induction Hf as [|d ies Hd Hf IH]; intros slots bs buf cap last Hs Hcap.
  - destruct slots; [|contradiction]. cbn in *. subst. rewrite app_nil_r. eauto.
  - destruct slots as [|s slots]; [contradiction|]. destruct Hs as (b1 & b2 & -> & Hc & (bss & Hb & ->) & Hs).
    rewrite lenN_app in Hcap. cbn [map enc_entries ee_h eentry_of].
    assert (Hte : to_encode (head d) s = s).
    { unfold to_encode. destruct (h_multi (head d)) eqn:Em; [reflexivity|]. apply count_ok_cap in Hc. unfold cap_of in Hc. rewrite Em in Hc.
      destruct s as [|v [|v2 s]]; try reflexivity. rewrite !lenN_cons in Hc. lia. }
    rewrite Hte.
    assert (Hmx : exists mxd, match h_multi (head d) with Some (mx, _) => mxd = mx | None => True end /\ (h_multi (head d) <> None -> 0 + lenN s <= mxd)).
    { apply count_ok_cap in Hc. unfold cap_of in Hc. destruct (h_multi (head d)) as [[mx mand]|].
      - exists mx. split; [reflexivity|]. intros _. destruct (h_pres (head d)); lia.
      - exists 0. split; [exact I|]. intros Hx; congruence. }
    destruct Hmx as (mxd & Hm1 & Hm2).
    destruct (enc_vals_repr Tail c d mxd Hd Hm1 s bss Hb buf cap last 0 ltac:(lia) Hm2) as (l1 & ->).
    destruct (IH slots b2 (buf ++ concat bss) cap l1 Hs) as (l2 & ->); [rewrite lenN_app; lia|].
    exists l2. rewrite <- app_assoc. reflexivity.
Qed.

Lemma enc_coding_repr Tail : forall cd c v bs cap buf, val_repr Tail cd c v bs -> lenN buf + lenN bs <= cap ->
  enc_coding cd c cap buf v = EOk (buf ++ bs).
Proof.
  induction cd as [h l|h nc o ies IH] using coding_ind'; intros c v bs cap buf Hv Hcap.
  - destruct v as [x|slots]; [|contradiction]. destruct Hv as [(f & Hf & Hx) _]. cbn. rewrite Hf. unfold tailroom. rewrite Hx by lia.
    destruct (N.ltb_spec (cap - lenN buf) (lenN bs)); [lia|reflexivity].
  - destruct v as [x|slots]; [contradiction|]. apply val_repr_nest in Hv. cbn.
    change (map (fun d => mkEEntry (head d) (enc_coding d)) ies) with (map (@eentry_of V) ies). unfold enc_list.
    destruct (enc_entries_repr Tail (match nc with Some x => x | None => c end) ies) with (slots := slots) (bs := bs) (buf := buf) (cap := cap) (last := @None (tag_inst * N * N)) as (l & ->); auto.
    eapply Forall_impl; [|exact IH]. cbn. intros d Hd v' bs' cap' buf' H1 H2. apply Hd; assumption.
Qed.

Theorem gtlvs_encode_repr Tail c ies slots bs buf cap : struct_repr (V := V) Tail c ies slots bs -> lenN buf + lenN bs <= cap ->
  gtlvs_encode c cap (Some ies) buf slots = EOk (buf ++ bs).
Proof.
  intros Hs Hcap. cbn [gtlvs_encode]. unfold enc_list.
  destruct (enc_entries_repr Tail c ies) with (slots := slots) (bs := bs) (buf := buf) (cap := cap) (last := @None (tag_inst * N * N)) as (l & ->); auto.
  apply Forall_forall. intros d _ v bs' cap' buf' H1 H2. eapply enc_coding_repr; eassumption.
Qed.

End Rt.
