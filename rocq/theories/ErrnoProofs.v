(* ErrnoProofs.v -- C87: error codes of failing decoding *)
From Verif Require Import Base BaseProofs GtlvModel GtlvSpec GtlvProofs DecEncModel DecEncSpec DecEncProofs DecOrdProofs
  DecCharProofs RtProofs OrdMandProofs EncShapeProofs WfProofs GtlvInst RepSpec RepProofs IesModel IesSpec IesProofs TablesModel MsgModel MsgSpec
  MsgProofs AcceptSpec AcceptProofs ErrnoSpec.

Section Any.
Context {V : Type}.
Implicit Types (es : list (entry V)) (slots : list (slot V)).

(* where and why placing of one IE fails *)
Definition refuses c r0 (it : item) e (x : entry V) (s : slot V) : Prop :=
  ti_match (h_ti (e_h x)) (fst it) = true /\
  (cap_of (e_h x) <= lenN s /\ e = ENOTSUP \/ lenN s < cap_of (e_h x) /\ e_dec x c false (snd it ++ r0) (lenN (snd it)) = Err e).

Lemma bind_err {A B} (r : res A) (f : A -> res B) e : bind r f = Err e <-> r = Err e \/ exists x, r = Ok x /\ f x = Err e.
Proof.
  destruct r as [x|e'|u]; cbn [bind]; split; intros H.
  - right. exists x. auto.
  - destruct H as [H|(y & [= <-] & H)]; [discriminate|exact H].
  - left. injection H as ->. reflexivity.
  - destruct H as [H|(y & H & _)]; [injection H as ->; reflexivity|discriminate].
  - discriminate.
  - destruct H as [H|(y & H & _)]; discriminate.
Qed.

Lemma place_err c r0 it e : forall es, es_distinct es -> Forall (fun e => max_pos (e_h e)) es ->
  forall idx slots, length slots = length es -> idx + lenN es <= seen_max ->
  (place c es idx 0 slots (fst it) (snd it ++ r0) (lenN (snd it)) = Err e <-> exists x s, In (x, s) (combine es slots) /\ refuses c r0 it e x s).
Proof.
  induction es as [|x es IH]; intros Hd Hmx idx slots Hl Hi; destruct slots as [|s slots]; try discriminate.
  - cbn [place combine]. rewrite N.eqb_refl. split; [discriminate|intros (x & s & [] & _)].
  - destruct Hd as [Hd1 Hd2]. inversion Hmx as [|? ? Hm1 Hm2]; subst. rewrite lenN_cons in Hi. cbn in Hl. rewrite place_cons by lia. cbn [combine].
    destruct (ti_match (h_ti (e_h x)) (fst it)) eqn:Et; cbn [negb].
    + pose proof (distinct_others _ _ _ Hd1 Et) as Hoth.
      assert (Honly : forall x' s', In (x', s') ((x, s) :: combine es slots) /\ refuses c r0 it e x' s' -> refuses c r0 it e x s).
      { intros x' s' [[E|Hin] R]; [injection E as -> ->; exact R|]. apply in_combine_l in Hin. rewrite Forall_forall in Hoth. specialize (Hoth _ Hin).
        destruct R as [R _]. congruence. }
      destruct (N.leb_spec (cap_of (e_h x)) (lenN s)).
      * rewrite place_none_left; [|exact Hoth|unfold max_pos in Hm1; destruct (h_multi (e_h x)) as [[mx mand]|]; lia]. cbn [bind]. split.
        -- intros [= <-]. exists x, s. split; [left; reflexivity|]. split; [exact Et|left; auto].
        -- intros (x' & s' & H'). apply Honly in H'. destruct H' as [_ [[_ ->]|[? _]]]; [reflexivity|lia].
      * rewrite bind_err. split.
        -- intros [Hv|(v & _ & Hv)]; [|discriminate]. exists x, s. split; [left; reflexivity|]. split; [exact Et|right; auto].
        -- intros (x' & s' & H'). apply Honly in H'. destruct H' as [_ [[? _]|[_ Hv]]]; [lia|left; exact Hv].
    + rewrite bind_err. split.
      * intros [Hr|(v & _ & Hv)]; [|discriminate]. apply IH in Hr; [|exact Hd2|exact Hm2|lia|lia]. destruct Hr as (x' & s' & A & B). exists x', s'. split; [right; exact A|exact B].
      * intros (x' & s' & [E|Hin] & R).
        -- injection E as -> ->. destruct R as [R _]. congruence.
        -- left. apply IH; [exact Hd2|exact Hm2|lia|lia|]. exists x', s'. auto.
Qed.

Lemma fold_place_err c r0 e es : forall items slots,
  (fold_place c es r0 slots items = Err e <-> exists items1 it items2 s1, items = items1 ++ it :: items2 /\ fold_place c es r0 slots items1 = Ok s1 /\
     place c es 0 0 s1 (fst it) (snd it ++ r0) (lenN (snd it)) = Err e).
Proof.
  induction items as [|it items IH]; intros slots; cbn [fold_place].
  - split; [discriminate|]. intros (i1 & it & i2 & s1 & E & _). destruct i1; discriminate.
  - rewrite bind_err. unfold place_item. split.
    + intros [H|(s & H1 & H2)].
      * exists [], it, items, slots. split; [reflexivity|]. split; [reflexivity|exact H].
      * apply IH in H2. destruct H2 as (i1 & it' & i2 & s1 & -> & F & P). exists (it :: i1), it', i2, s1. split; [reflexivity|]. split; [|exact P].
        cbn [fold_place]. unfold place_item. rewrite H1. exact F.
    + intros (i1 & it' & i2 & s1 & E & F & P). destruct i1 as [|x i1].
      * injection E as <- <-. cbn [fold_place] in F. injection F as <-. left. exact P.
      * injection E as <- ->. cbn [fold_place] in F. unfold place_item in F. apply bind_ok in F as (s & F1 & F2). right. exists s. split; [exact F1|]. apply IH.
        exists i1, it', i2, s1. auto.
Qed.

Lemma placed_slots c r0 (ies : list (coding V)) items :
  placed c r0 ies items <-> exists slots, Forall2 (fun d s => (s = [] \/ lenN s <= cap_of (head d)) /\
        Forall2 (fun it v => dec_coding d c false (snd it ++ r0) (lenN (snd it)) = Ok v) (items_for d items) s) ies slots.
Proof.
  unfold placed. rewrite Forall2_exists. split; intros H; (eapply Forall_impl; [|exact H]); intros d.
  - intros [A B]. assert (B' : exists s, Forall2 (fun it v => dec_coding d c false (snd it ++ r0) (lenN (snd it)) = Ok v) (items_for d items) s) by (apply Forall2_exists; exact B).
    destruct B' as [s Hs]. exists s. split; [|exact Hs]. right. apply Forall2_length in Hs. unfold lenN, item in *. rewrite <- Hs. exact A.
  - intros (s & A & B). pose proof (Forall2_length _ _ _ B) as Hl. split.
    + destruct A as [->|A]; unfold lenN, item in *; [rewrite Hl; cbn [length]; lia|rewrite Hl; exact A].
    + apply Forall2_exists. exists s. exact B.
Qed.

Lemma in_combine_map {A B C} (f : A -> C) (l : list A) : forall (m : list B) x y, In (x, y) (combine (map f l) m) -> exists a, x = f a /\ In (a, y) (combine l m).
Proof.
  induction l as [|a l IH]; intros [|b m] x y H; cbn [map combine] in *; try contradiction. destruct H as [H|H].
  - injection H as <- <-. exists a. split; [reflexivity|left; reflexivity].
  - apply IH in H. destruct H as (a' & E & H). exists a'. split; [exact E|right; exact H].
Qed.
Lemma combine_map_in {A B C} (f : A -> C) (l : list A) : forall (m : list B) a y, In (a, y) (combine l m) -> In (f a, y) (combine (map f l) m).
Proof. induction l as [|a l IH]; intros [|b m] x y H; cbn [map combine] in *; try contradiction. destruct H as [[= <- <-]|H]; [left; reflexivity|right; auto]. Qed.
Lemma Forall2_combine {A B} (R : A -> B -> Prop) l m : Forall2 R l m -> forall a b, In (a, b) (combine l m) -> R a b.
Proof. induction 1 as [|x y l m Hx H IH]; intros a b Hin; cbn [combine] in Hin; [contradiction|]. destruct Hin as [[= <- <-]|Hin]; auto. Qed.
Lemma Forall2_in_combine {A B} (R : A -> B -> Prop) l m : Forall2 R l m -> forall a, In a l -> exists b, In (a, b) (combine l m).
Proof.
  induction 1 as [|x y l m Hx H IH]; intros a Hin; [contradiction|]. cbn [combine]. destruct Hin as [->|Hin]; [exists y; left; reflexivity|].
  destruct (IH a Hin) as [b Hb]. exists b. right. exact Hb.
Qed.

Theorem decode_error Tail c (ies : list (coding V)) d rest e :
  cfg_ok c -> tail_closed Tail -> Tail rest ->
  Forall (all_leaves (leaf_local Tail)) ies -> Forall (all_cfgs cfg_ok) ies ->
  distinct_tags ies -> maxes_pos ies -> small_table ies ->
  (gtlvs_decode c false (Some ies) (d ++ rest) (lenN d) = Err e <->
   exists items en, reads c d items en /\ first_error c rest ies items en e).
Proof.
  intros Hok Htc Hr Hl Hc Hd Hmx Hsm. cbn [gtlvs_decode decode_entries].
  assert (HL : Forall (entry_local Tail c false) (map entry_of ies)).
  { apply Forall_map. rewrite Forall_forall in *. intros x Hx. apply dec_coding_local; auto. }
  rewrite (decode_unordered_items Tail c _ rest) by assumption. unfold parsed. rewrite pitems_scan by (assumption || lia).
  destruct (scan (S (length d)) c d) as [items en] eqn:Esc.
  assert (Hreads : forall i n, reads c d i n <-> i = items /\ n = en).
  { intros i n. split.
    - intros H. apply reads_scanned in H; [|exact Hok]. unfold scanned in H. rewrite Esc in H. injection H as <- <-. auto.
    - intros [-> ->]. apply scanned_reads; assumption. }
  assert (Q : (exists i n, reads c d i n /\ first_error c rest ies i n e) <-> first_error c rest ies items en e).
  { split; [intros (i & n & A & B); apply Hreads in A; destruct A as [-> ->]; exact B|intros H; exists items, en; split; [apply Hreads; auto|exact H]]. }
  rewrite Q. clear Q Hreads.
  assert (Hsm' : lenN (map entry_of ies) <= seen_max) by (unfold small_table, seen_max, lenN in *; rewrite map_length; exact Hsm).
  assert (Hdi : es_distinct (map entry_of ies)) by (apply distinct_es, Hd).
  assert (Hmx' : Forall (fun e : entry V => max_pos (e_h e)) (map entry_of ies)) by (apply Forall_map; exact Hmx).
  assert (HFP : forall its s, fold_place c (map entry_of ies) rest (init_slots (map entry_of ies)) its = Ok s <->
    Forall2 (fun d s => (s = [] \/ lenN s <= cap_of (head d)) /\
        Forall2 (fun it v => dec_coding d c false (snd it ++ rest) (lenN (snd it)) = Ok v) (items_for d its) s) ies s).
  { intros its s. rewrite fold_place_adds; [apply All3_init|exact Hdi|exact Hmx'|exact Hsm'|unfold init_slots; apply map_length]. }
  assert (Hcnt : forall its s, fold_place c (map entry_of ies) rest (init_slots (map entry_of ies)) its = Ok s ->
    Forall2 (fun d s => lenN s = lenN (items_for d its)) ies s).
  { intros its s H. apply HFP in H. eapply Forall2_impl; [|exact H]. cbn. intros x y [_ F]. apply Forall2_length in F. unfold lenN, item in *. rewrite F. reflexivity. }
  assert (Hpl : forall its, placed c rest ies its <-> exists s, fold_place c (map entry_of ies) rest (init_slots (map entry_of ies)) its = Ok s).
  { intros its. rewrite placed_slots. split; intros [s H]; exists s; apply HFP; exact H. }
  rewrite bind_err. split.
  - intros [H|(s & Hs & H)].
    + apply fold_place_err in H. destruct H as (i1 & it & i2 & s1 & E & F & P).
      pose proof (Hcnt _ _ F) as Hn. pose proof (Forall2_length _ _ _ Hn) as Hlen.
      apply place_err in P; [|exact Hdi|exact Hmx'|rewrite map_length; auto|lia]. destruct P as (x & s & Hin & Ht & R).
      apply in_combine_map in Hin. destruct Hin as (x' & -> & Hin). pose proof (Forall2_combine _ _ _ Hn _ _ Hin) as En. cbn beta in En. apply in_combine_l in Hin.
      cbn [entry_of e_h e_dec] in *. assert (Hp : placed c rest ies i1) by (apply Hpl; exists s1; exact F).
      assert (Hle : lenN (items_for x' i1) <= cap_of (head x')).
      { unfold placed in Hp. rewrite Forall_forall in Hp. apply (Hp _ Hin). }
      destruct R as [[R ->]|[R1 R2]].
      * eapply FE_surplus; [exact E|exact Hp|exact Hin|exact Ht|lia|reflexivity].
      * eapply FE_value; [exact E|exact Hp|exact Hin|exact Ht|lia|exact R2].
    + assert (Hp : placed c rest ies items) by (apply Hpl; exists s; exact Hs).
      apply bind_err in H. destruct H as [H|(u & Hu & H)].
      * destruct en as [|e' t]; [discriminate|]. injection H as ->. eapply FE_torn; [exact Hp|reflexivity].
      * apply bind_err in H. destruct H as [H|(u' & _ & H)]; [|discriminate]. pose proof (Hcnt _ _ Hs) as Hn. pose proof (Forall2_length _ _ _ Hn) as Hlen.
        rewrite check_mand_iff in H by (rewrite ?map_length; auto; lia).
        destruct (forallb _ _) eqn:Ef; [discriminate|]. injection H as <-. apply FE_missing; [exact Hp|destruct en; [reflexivity|discriminate]| |reflexivity].
        clear - Ef Hn. induction Hn as [|x y ies s Hx Hn IH]; cbn [map combine forallb fst snd] in Ef; [discriminate|].
        destruct (N.leb_spec (low_of (e_h (entry_of x))) (lenN y)); cbn [andb] in Ef; [right; apply IH, Ef|left]. cbn [entry_of e_h] in *. lia.
  - intros H. destruct H as [i1 it i2 x E Hp Hin Ht Hcap ->|i1 it i2 x E Hp Hin Ht Hlt Hv|t Hp ->|Hp -> Hex ->].
    1,2: left; apply fold_place_err; apply Hpl in Hp; destruct Hp as [s1 F]; exists i1, it, i2, s1; split; [exact E|]; split; [exact F|];
      pose proof (Hcnt _ _ F) as Hn; pose proof (Forall2_length _ _ _ Hn) as Hlen;
      destruct (Forall2_in_combine _ _ _ Hn _ Hin) as [s Hs]; pose proof (Forall2_combine _ _ _ Hn _ _ Hs) as En; cbn beta in En;
      apply place_err; [exact Hdi|exact Hmx'|rewrite map_length; auto|lia|]; exists (entry_of x), s; split; [apply combine_map_in; exact Hs|]; split; [exact Ht|];
      cbn [entry_of e_h e_dec].
    + left. split; [lia|reflexivity].
    + right. split; [lia|exact Hv].
    + right. apply Hpl in Hp. destruct Hp as [s Hs]. exists s. split; [exact Hs|reflexivity].
    + right. apply Hpl in Hp. destruct Hp as [s Hs]. exists s. split; [exact Hs|]. cbn [bind]. apply bind_err. left.
      pose proof (Hcnt _ _ Hs) as Hn. pose proof (Forall2_length _ _ _ Hn) as Hlen. rewrite check_mand_iff by (rewrite ?map_length; auto; lia).
      assert (Ef : forallb (fun x => low_of (e_h (fst x)) <=? lenN (snd x)) (combine (map entry_of ies) s) = false).
      { clear - Hex Hn. induction Hn as [|x y ies s Hx Hn IH]; cbn [map combine forallb fst snd]; [inversion Hex|].
        inversion Hex as [? ? Hlt|? ? Hex']; subst; [|rewrite IH by assumption; apply andb_false_r].
        destruct (N.leb_spec (low_of (e_h (entry_of x))) (lenN y)); [|reflexivity]. cbn [entry_of e_h] in *. lia. }
      rewrite Ef. reflexivity.
Qed.
End Any.

(* ---------------------------------------------------------------- single IEs *)
Definition only_einval {A} (r : res A) : Prop := forall e, r = Err e -> e = EINVAL.
Lemma oe_ok {A} (x : A) : only_einval (Ok x).
Proof. intros e H. discriminate. Qed.
Lemma oe_ub {A} u : only_einval (A := A) (UB u).
Proof. intros e H. discriminate. Qed.
Lemma oe_einval {A} : only_einval (A := A) (Err EINVAL).
Proof. intros e [= <-]. reflexivity. Qed.
Lemma oe_bind {A B} (r : res A) (f : A -> res B) : only_einval r -> (forall x, only_einval (f x)) -> only_einval (bind r f).
Proof. intros Hr Hf e H. apply bind_err in H. destruct H as [H|(x & _ & H)]; [apply Hr, H|apply (Hf x), H]. Qed.
Lemma oe_rdN n m : only_einval (rdN n m).
Proof. unfold rdN. dif E; [apply oe_ok|apply oe_ub]. Qed.
Lemma oe_rd_be n m : only_einval (rd_be n m).
Proof. unfold rd_be. apply oe_bind; [apply oe_rdN|intros; apply oe_ok]. Qed.
Lemma oe_take m len ofs n : only_einval (take m len ofs n).
Proof. unfold take. dif E; [apply oe_einval|apply oe_rdN]. Qed.
Lemma oe_bits d k : only_einval (bits_get d k).
Proof. unfold bits_get. destruct (nth_error d _); [apply oe_ok|apply oe_ub]. Qed.
Lemma oe_addrs m len ofs a b : only_einval (dec_addrs m len ofs a b).
Proof.
  unfold dec_addrs. apply oe_bind; [destruct a; [apply oe_bind; [apply oe_take|intros; apply oe_ok]|apply oe_ok]|]. intros [x o].
  apply oe_bind; [destruct b; [apply oe_bind; [apply oe_take|intros; apply oe_ok]|apply oe_ok]|]. intros [y p]. apply oe_ok.
Qed.
Lemma oe_opt m len ofs n p : only_einval (dec_opt m len ofs n p).
Proof. unfold dec_opt. destruct p; [apply oe_bind; [apply oe_take|intros; apply oe_ok]|apply oe_ok]. Qed.
Lemma oe_apn fuel : forall m len, only_einval (apn_to_str fuel m len).
Proof.
  induction fuel as [|f IH]; intros m len; cbn [apn_to_str]; [apply oe_ub|]. dif E; [apply oe_ok|]. destruct m as [|b m]; [apply oe_ub|].
  dif E1; [apply oe_ok|]. dif E2; [apply oe_ok|]. apply oe_bind; [apply oe_rdN|]. intros x. apply oe_bind; [apply IH|]. intros [y|]; apply oe_ok.
Qed.
Lemma oe_name m len arr : only_einval (dec_name m len arr).
Proof. unfold dec_name. apply oe_bind; [apply oe_apn|]. intros [s|]; [|apply oe_ok]. dif E; [apply oe_ub|apply oe_ok]. Qed.
Lemma oe_ohbits d : only_einval (oh_bits d).
Proof. unfold oh_bits. repeat (apply oe_bind; [apply oe_bits|intros]). apply oe_ok. Qed.

Ltac oe := repeat first
  [ apply oe_ok | apply oe_ub | apply oe_einval | apply oe_rdN | apply oe_rd_be | apply oe_take | apply oe_addrs | apply oe_opt | apply oe_ohbits
  | apply oe_bits | apply oe_bind; [|intros] | match goal with |- only_einval (if ?b then _ else _) => destruct b
  | |- only_einval (let '(_, _) := ?x in _) => destruct x end ].

Lemma ie_only_einval k m len : k <> KNodeId -> k <> KNetInst -> k <> KActPredef -> only_einval (dec_of k m len).
Proof.
  intros H1 H2 H3. destruct k; cbn [dec_of]; try congruence;
  unfold dec_cause, dec_offending_ie, dec_8, dec_16be, dec_32be, dec_3gpp_iface_type, dec_iface, dec_up_ff, dec_cp_ff, dec_f_seid, dec_f_teid,
    dec_apply_action, dec_bits_padded, dec_ohc, dec_ohr, dec_ue_ip, at_ofs; cbv zeta; oe.
Qed.

Lemma name_length_split {A} (n : list N) (a b : A) :
  (if (lenN n <? 1) || (254 <? lenN n) then a else b) = (if name_length_ok n then b else a).
Proof.
  unfold name_length_ok. destruct (N.ltb_spec (lenN n) 1); destruct (N.leb_spec 1 (lenN n)); try lia; cbn [orb andb]; [reflexivity|].
  destruct (N.ltb_spec 254 (lenN n)); destruct (N.leb_spec (lenN n) 254); try lia; reflexivity.
Qed.

Lemma errno_only k v e : k <> KActPredef -> dec_of k v (lenN v) = Err e -> e = ie_errno k v.
Proof.
  intros Hk H. assert (G : k <> KNodeId -> k <> KNetInst -> e = EINVAL) by (intros A B; exact (ie_only_einval k v (lenN v) A B Hk e H)).
  destruct k; try congruence; try (apply G; discriminate); clear G.
  - cbn [dec_of] in H. unfold dec_node_id in H. dif_in H E0; [injection H as <-; destruct v as [|x v]; [reflexivity|rewrite lenN_cons in E0; lia]|].
    destruct v as [|t n]; [rewrite lenN_nil in E0; lia|]. rewrite rd_be_self in H by lia. rewrite be_get_1 in H by lia. cbn [nth bind] in H.
    rewrite lenN_cons in H. replace (1 + lenN n - 1) with (lenN n) in H by lia.
    destruct (N.eqb_spec t 2) as [->|Ht].
    + change (2 =? 0) with false in H. change (2 =? 1) with false in H. cbv iota in H. rewrite name_length_split in H. cbn [ie_errno].
      destruct (name_length_ok n); [|injection H as <-; reflexivity].
      revert H. apply (oe_bind _ _ (oe_name _ _ _)). intros [s|]; [apply oe_ok|apply oe_einval].
    + assert (E : ie_errno KNodeId (t :: n) = EINVAL) by (destruct t as [|[p|[p|p|]|]]; try congruence; reflexivity). rewrite E.
      dif_in H E1; [dif_in H E2; [injection H as <-; reflexivity|]; revert H; apply oe_bind; [apply oe_rdN|intros; apply oe_ok]|].
      dif_in H E2; [dif_in H E3; [injection H as <-; reflexivity|]; revert H; apply oe_bind; [apply oe_rdN|intros; apply oe_ok]|].
      injection H as <-. reflexivity.
  - cbn [dec_of ie_errno] in *. unfold dec_network_inst in H. rewrite name_length_split in H. destruct (name_length_ok v); [|injection H as <-; reflexivity].
    revert H. apply (oe_bind _ _ (oe_name _ _ _)). intros [s|]; [apply oe_ok|apply oe_einval].
Qed.

Theorem ie_error k v rest e : (k = KActPredef -> In 0 rest) ->
  (dec_of k (v ++ rest) (lenN v) = Err e <-> ~ ie_accept k v /\ e = ie_errno k v).
Proof.
  intros Hr. pose proof (ie_accept_iff k v rest Hr) as Hacc. destruct (kind_dec k) as [->|Hk].
  - destruct (act_predef_def v rest (Hr eq_refl)) as [s E]. cbn [dec_of]. rewrite E. split; [discriminate|]. intros [C _]. exfalso. apply C. exact I.
  - destruct (dec_safe k v rest Hk) as [Hu E]. split.
    + intros H. split; [intros A; apply Hacc in A; destruct A as [x A]; congruence|]. rewrite E in H. exact (errno_only k v e Hk H).
    + intros [Hn ->]. destruct (dec_of k (v ++ rest) (lenN v)) as [x|e'|u] eqn:D.
      * exfalso. apply Hn, Hacc. exists x. reflexivity.
      * rewrite (errno_only k v e' Hk (eq_sym E)). reflexivity.
      * exfalso. exact (Hu u eq_refl).
Qed.

(* ---------------------------------------------------------------- PFCP messages *)

(* the IEs in the octets of a PFCP message *)
Lemma t16_scan_ser items tail : rep_items rep_t16l16v items ->
  scanned t16l16v (ser hdr_t16l16v items ++ tail) = let '(l, en) := scanned t16l16v tail in (items ++ l, en).
Proof.
  intros Hr. unfold scanned. induction Hr as [|it items Hit Hr IH].
  - cbn [ser map concat app]. destruct (scan _ _ tail) as [l en]. reflexivity.
  - change (ser hdr_t16l16v (it :: items)) with (ser1 hdr_t16l16v it ++ ser hdr_t16l16v items). rewrite <- app_assoc.
    pose proof (rt_min _ _ _ t16l16v_rt _ _ Hit) as Hm. change (cfg_min t16l16v) with 4 in Hm. unfold ser1 at 1 2. rewrite <- !app_assoc.
    destruct (scan (S (length tail)) t16l16v tail) as [l en]. set (X := ser hdr_t16l16v items ++ tail) in *. set (H := hdr_t16l16v (fst it) (lenN (snd it))) in *. cbn [scan].
    assert (El : lenN (H ++ snd it ++ X) = lenN H + (lenN (snd it) + lenN X)) by (rewrite !lenN_app; reflexivity). change (lenN H) with 4 in *.
    destruct (N.eqb_spec (lenN (H ++ snd it ++ X)) 0); [lia|]. change (cfg_min t16l16v) with 4. destruct (N.ltb_spec (lenN (H ++ snd it ++ X)) 4); [lia|].
    assert (Eld : cfg_load t16l16v (H ++ snd it ++ X) (lenN (H ++ snd it ++ X)) = Ok (fst it, lenN (snd it), 4)).
    { apply (rt_load _ _ _ t16l16v_rt); [exact Hit|]. change (lenN _) with 4 at 1. lia. }
    rewrite Eld.
    destruct (N.ltb_spec (lenN (H ++ snd it ++ X)) (4 + lenN (snd it))); [lia|].
    assert (Ed : dropN (4 + lenN (snd it)) (H ++ snd it ++ X) = X).
    { rewrite app_assoc. replace (4 + lenN (snd it)) with (lenN (H ++ snd it)) by (rewrite lenN_app; reflexivity). apply dropN_app. }
    assert (Et : takeN (lenN (snd it)) (dropN 4 (H ++ snd it ++ X)) = snd it).
    { change 4 with (lenN H). rewrite dropN_app. apply takeN_app. }
    rewrite Ed, Et. rewrite (scan_fuel t16l16v t16_cfg_ok _ (S (length X))) by (rewrite ?app_length; unfold H, hdr_t16l16v; cbn [length]; lia).
    rewrite IH. destruct it; reflexivity.
Qed.
Lemma torn_scan tail : torn tail -> exists t, scanned t16l16v tail = ([], Broken EBADMSG t).
Proof.
  intros [Hne Ht]. unfold scanned. cbn [scan]. destruct (N.eqb_spec (lenN tail) 0) as [E|E]; [destruct tail; [congruence|rewrite lenN_cons in E; lia]|].
  change (cfg_min t16l16v) with 4. destruct (N.ltb_spec (lenN tail) 4); [eauto|]. destruct Ht as [Ht|(a & b & x & y & w & -> & Ht)]; [lia|].
  cbn [cfg_load t16l16v t16l16v_load]. rewrite !lenN_cons. destruct (N.ltb_spec (1 + (1 + (1 + (1 + lenN w)))) (4 + (x * 256 + y))); [eauto|lia].
Qed.
Lemma t16_split f : forall d items en, (length d < f)%nat -> bytes_ok d -> scan f t16l16v d = (items, en) ->
  rep_items rep_t16l16v items /\ exists tail, d = ser hdr_t16l16v items ++ tail /\ (tail = [] /\ en = Proper \/ torn tail /\ exists t, en = Broken EBADMSG t).
Proof.
  induction f as [|f IH]; intros d items en Hf Hb H; [lia|]. cbn [scan] in H. destruct (N.eqb_spec (lenN d) 0) as [E|E].
  { injection H as <- <-. split; [constructor|]. exists []. split; [destruct d; [reflexivity|rewrite lenN_cons in E; lia]|left; auto]. }
  assert (Hne : d <> []) by (intros ->; apply E; reflexivity).
  change (cfg_min t16l16v) with 4 in H. destruct (N.ltb_spec (lenN d) 4) as [E1|E1].
  { injection H as <- <-. split; [constructor|]. exists d. split; [reflexivity|]. right. split; [split; [exact Hne|left; exact E1]|eauto]. }
  pose proof (t16l16v_inv d (lenN d)) as Hinv. destruct d as [|a [|b [|x [|y w]]]]; try (unfold lenN in E1; cbn [length] in E1; lia).
  cbn [cfg_load t16l16v t16l16v_load] in *. rewrite !lenN_cons in H.
  destruct (N.ltb_spec (1 + (1 + (1 + (1 + lenN w)))) (4 + (x * 256 + y))) as [E2|E2].
  { injection H as <- <-. split; [constructor|]. exists (a :: b :: x :: y :: w). split; [reflexivity|]. right. split; [split; [exact Hne|]|eauto]. right.
    exists a, b, x, y, w. split; [reflexivity|lia]. }
  specialize (Hinv _ _ _ Hb (N.le_refl _) E1 eq_refl). destruct Hinv as [Hrep Hhdr]. change (takeN 4 (a :: b :: x :: y :: w)) with [a; b; x; y] in Hhdr.
  set (len := x * 256 + y) in *. 
  assert (Ed : dropN (4 + len) (a :: b :: x :: y :: w) = dropN len w) by (rewrite <- dropN_dropN; reflexivity). rewrite Ed in H.
  change (dropN 4 (a :: b :: x :: y :: w)) with w in H.
  destruct (scan f t16l16v (dropN len w)) as [l en'] eqn:Es. injection H as <- <-.
  assert (Hbw : bytes_ok w) by (unfold bytes_ok in *; do 4 (apply Forall_inv_tail in Hb); exact Hb).
  apply IH in Es; [| |apply bytes_ok_dropN; exact Hbw].
  2:{ unfold dropN. rewrite skipn_length. cbn [length] in Hf. lia. }
  destruct Es as (Hr & tail & Et & Hend). assert (Hlt : lenN (takeN len w) = len) by (apply lenN_takeN; lia). split.
  - constructor; [cbn [fst snd]; rewrite Hlt; exact Hrep|exact Hr].
  - exists tail. split; [|exact Hend]. unfold ser in *. cbn [map concat]. unfold ser1 at 1. cbn [fst snd]. rewrite Hlt, <- Hhdr. rewrite <- !app_assoc, <- Et, takeN_dropN. reflexivity.
Qed.

Lemma fold_right_or {A} (P : A -> Prop) l : fold_right (fun x acc => P x \/ acc) False l <-> Exists P l.
Proof. induction l as [|x l IH]; cbn [fold_right]; [split; [contradiction|intros H; inversion H]|]. rewrite IH, Exists_cons. reflexivity. Qed.
Lemma occ_cap h : head_std h -> cap_of h = at_most (occ_head h).
Proof. intros [_ H]. unfold cap_of, occ_head, at_most. destruct (h_multi h) as [[mx mand]|]; [destruct H as [-> ->]; reflexivity|destruct (h_pres h); reflexivity]. Qed.
Lemma occ_low h : head_std h -> low_of h = at_least (occ_head h).
Proof. intros [_ H]. unfold low_of, occ_head, at_least. destruct (h_multi h) as [[mx mand]|]; [destruct H as [_ ->]; reflexivity|destruct (h_pres h); reflexivity]. Qed.

Lemma ptab_tables_one ies p : all_tables table_ok (map ptab ies) -> In p ies -> all_tables table_ok [ptab p].
Proof.
  intros [Ht Htn] Hin. split.
  - split; [intros i j a b Hij Ha Hb'; destruct i; destruct j as [|[|]]; cbn in *; try discriminate; lia|]. destruct Ht as (_ & Hm & _). split.
    + constructor; [|constructor]. unfold maxes_pos in Hm. rewrite Forall_forall in Hm. apply Hm. apply in_map. exact Hin.
    + unfold small_table. vm_compute. discriminate.
  - constructor; [|constructor]. rewrite Forall_forall in Htn. apply Htn. apply in_map. exact Hin.
Qed.

Lemma placed_so_far ies items rest : Forall all_std ies -> all_tables table_ok (map ptab ies) -> In 0 rest ->
  rep_items rep_t16l16v items -> Forall (fun it => bytes_ok (snd it)) items ->
  (placed t16l16v rest (map ptab ies) items <-> so_far_ok (map sh ies) (map plain_item items)).
Proof.
  intros Hs Ht Hr Hri Hb. unfold placed, so_far_ok. rewrite !Forall_map.
  split; intros H; rewrite Forall_forall in *; intros p Hin; specialize (H p Hin); pose proof (all_std_head _ (Hs p Hin)) as Hh;
    rewrite (values_items p items Hh Hri), head_ptab, sh_occ, (occ_cap _ Hh) in *; destruct H as [A B];
    (assert (Hbv : Forall (fun it => bytes_ok (snd it)) (items_for (ptab p) items))
       by (unfold items_for; rewrite Forall_forall; intros x Hx; apply filter_In in Hx; apply Hb, Hx));
    rewrite Forall_forall in Hbv.
  - split; [unfold lenN, item in *; rewrite map_length; exact A|]. rewrite Forall_map, Forall_forall in *. intros it Hi. 
    apply (dec_iff_all p (Hs p Hin) (ptab_tables_one _ _ Ht Hin) (snd it) rest (Hbv it Hi) Hr). apply (B it Hi).
  - split; [unfold lenN, item in *; rewrite map_length in A; exact A|]. rewrite Forall_map, Forall_forall in *. intros it Hi.
    apply (dec_iff_all p (Hs p Hin) (ptab_tables_one _ _ Ht Hin) (snd it) rest (Hbv it Hi) Hr). apply (B it Hi).
Qed.

Lemma has_tag_iei p it : head_std (phead p) -> rep_t16l16v (fst it) (lenN (snd it)) ->
  (has_tag (ptab p) (fst it) <-> fst (plain_item it) = iei_of (sh p)).
Proof.
  intros [Et _] (t & E & _). unfold has_tag. rewrite head_ptab, sh_iei, Et, E. rewrite ti_of_tag_match. destruct it as [ti v]. cbn [fst snd] in *. subst ti.
  unfold plain_item. cbn [fst ti_of_tag ti_tag]. apply N.eqb_eq.
Qed.

Definition err_iff (p : pcoding) : Prop := all_std p -> all_tables table_ok [ptab p] ->
  forall v rest e, bytes_ok v -> In 0 rest -> (dec_coding (ptab p) t16l16v false (v ++ rest) (lenN v) = Err e <-> content_error (sh p) v e).

Lemma seq_then d l tail : ie_seq_then d l tail -> exists items, rep_items rep_t16l16v items /\ d = ser hdr_t16l16v items ++ tail /\ l = map plain_item items.
Proof.
  intros [E H]. destruct (plain_ser (concat (map ie_octets l)) l (conj eq_refl H)) as (items & A & B & C). exists items. rewrite E, B. auto.
Qed.

Lemma body_error_iff ies d rest e : Forall err_iff ies -> Forall all_std ies -> all_tables table_ok (map ptab ies) -> bytes_ok d -> In 0 rest ->
  (gtlvs_decode t16l16v false (Some (map ptab ies)) (d ++ rest) (lenN d) = Err e <-> body_error (map sh ies) d e).
Proof.
  intros Hp Hs Ht Hb Hr. 
  rewrite (decode_error NulTail); [|exact t16_cfg_ok|exact NulTail_closed|exact Hr|apply tabs_local|apply tabs_cfgs|apply Ht|apply Ht|apply Ht].
  assert (Hlow : forall items, rep_items rep_t16l16v items ->
    (Exists (fun d => lenN (items_for d items) < low_of (head d)) (map ptab ies) <->
     Exists (fun q => lenN (values_of (iei_of q) (map plain_item items)) < at_least (occ_of q)) (map sh ies))).
  { intros items Hri. rewrite !Exists_exists. rewrite Forall_forall in Hs. split; intros (x & Hx & Hlt); apply in_map_iff in Hx; destruct Hx as (p & <- & Hin);
      pose proof (all_std_head _ (Hs p Hin)) as Hh; [exists (sh p)|exists (ptab p)]; (split; [apply in_map; exact Hin|]);
      rewrite (values_items p items Hh Hri), head_ptab, sh_occ, (occ_low _ Hh) in *; unfold lenN, item in *; rewrite map_length in *; exact Hlt. }
  unfold body_error, body_error_of. split.
  - intros (items & en & Hrd & HF). apply reads_scanned in Hrd; [|exact t16_cfg_ok]. apply t16_split in Hrd; [|lia|exact Hb].
    destruct Hrd as (Hri & tail & Ed & Hend). exists (map plain_item items), tail.
    assert (Hbi : Forall (fun it => bytes_ok (snd it)) items) by (rewrite Ed in Hb; apply bytes_ok_app in Hb; apply (bytes_items (fun _ => True)), Hb).
    assert (Htail : tail = [] \/ torn tail) by (destruct Hend as [[A _]|[A _]]; auto).
    split; [split; [rewrite Ed; f_equal; apply (ser_plain items Hri)|apply (ser_plain items Hri)]|]. split; [exact Htail|].
    assert (Hsof : placed t16l16v rest (map ptab ies) items -> so_far_ok (map sh ies) (map plain_item items)) by (apply placed_so_far; assumption).
    assert (Hin1 : forall i1 it i2 dd, items = i1 ++ it :: i2 -> placed t16l16v rest (map ptab ies) i1 -> In dd (map ptab ies) -> has_tag dd (fst it) ->
      exists p, dd = ptab p /\ In p ies /\ so_far_ok (map sh ies) (map plain_item i1) /\ fst (plain_item it) = iei_of (sh p) /\
        lenN (items_for dd i1) = lenN (values_of (iei_of (sh p)) (map plain_item i1)) /\ cap_of (head dd) = at_most (occ_of (sh p)) /\ bytes_ok (snd it)).
    { intros i1 it i2 dd Ei Hpl Hin Htag. apply in_map_iff in Hin. destruct Hin as (p & <- & Hin). exists p. rewrite Forall_forall in Hs.
      pose proof (all_std_head _ (Hs p Hin)) as Hh. unfold rep_items in Hri. rewrite Ei in Hri, Hbi. apply Forall_app in Hri. apply Forall_app in Hbi. destruct Hri as [R1 R2], Hbi as [B1 B2].
      inversion R2 as [|? ? R3 _]; subst. inversion B2 as [|? ? B3 _]; subst.
      split; [reflexivity|]. split; [exact Hin|]. split; [apply (placed_so_far ies i1 rest); try assumption; apply Forall_forall; exact Hs|]. split; [apply has_tag_iei; assumption|].
      split; [rewrite (values_items p i1 Hh R1); unfold lenN, item; rewrite map_length; reflexivity|].
      split; [rewrite head_ptab, sh_occ; apply occ_cap, Hh|exact B3]. }
    destruct HF as [i1 it i2 dd Ei Hpl Hin Htag Hcap He|i1 it i2 dd Ei Hpl Hin Htag Hlt Hv|t Hpl Hen|Hpl Hen Hex He].
    + destruct (Hin1 _ _ _ _ Ei Hpl Hin Htag) as (p & -> & Hip & Hso & Htg & En & Ec & _). left.
      exists (map plain_item i1), (plain_item it), (map plain_item i2). split; [rewrite Ei, map_app; reflexivity|]. split; [exact Hso|].
      apply fold_right_or. apply Exists_exists. exists (sh p). split; [apply in_map; exact Hip|]. split; [exact Htg|]. left. split; [lia|exact He].
    + destruct (Hin1 _ _ _ _ Ei Hpl Hin Htag) as (p & -> & Hip & Hso & Htg & En & Ec & Hbt). left.
      exists (map plain_item i1), (plain_item it), (map plain_item i2). split; [rewrite Ei, map_app; reflexivity|]. split; [exact Hso|].
      apply fold_right_or. apply Exists_exists. exists (sh p). split; [apply in_map; exact Hip|]. split; [exact Htg|]. right. split; [lia|].
      rewrite Forall_forall in Hp, Hs. apply (Hp p Hip (Hs p Hip) (ptab_tables_one _ _ Ht Hip) (snd it) rest e Hbt Hr). exact Hv.
    + right. left. split; [apply Hsof, Hpl|]. destruct Hend as [[_ E]|[T [t' E]]]; [congruence|]. split; [apply T|congruence].
    + right. right. split; [apply Hsof, Hpl|]. destruct Hend as [[E _]|[_ [t' E]]]; [|congruence]. split; [exact E|]. split; [exact He|]. apply fold_right_or. apply Hlow; assumption.
  - intros (l & tail & Hseq & Htail & HE). destruct (seq_then _ _ _ Hseq) as (items & Hri & Ed & ->). 
    assert (Hbi : Forall (fun it => bytes_ok (snd it)) items) by (rewrite Ed in Hb; apply bytes_ok_app in Hb; apply (bytes_items (fun _ => True)), Hb).
    assert (Hsc : exists en, scanned t16l16v d = (items, en) /\ (tail = [] -> en = Proper) /\ (tail <> [] -> exists t, en = Broken EBADMSG t)).
    { rewrite Ed, t16_scan_ser by exact Hri. destruct Htail as [->|Htn].
      - exists Proper. change (scanned t16l16v []) with (@nil item, Proper). cbv iota beta. split; [f_equal; apply app_nil_r|]. split; [reflexivity|congruence].
      - destruct (torn_scan _ Htn) as [t ->]. exists (Broken EBADMSG t). split; [f_equal; apply app_nil_r|]. split; [|eauto]. intros ->. destruct Htn as [Htn _]. congruence. }
    destruct Hsc as (en & Hsc & Hen0 & Hen1). exists items, en. split; [apply scanned_reads; [exact t16_cfg_ok|exact Hsc]|].
    destruct HE as [(l1 & x & l2 & El & Hso & Hex)|[(Hso & Hne & ->)|(Hso & Hnil & -> & Hex)]].
    + assert (Hsp : exists i1 it i2, items = i1 ++ it :: i2 /\ l1 = map plain_item i1 /\ x = plain_item it /\ l2 = map plain_item i2).
      { apply map_eq_app in El. destruct El as (i1 & i2' & -> & <- & E2). destruct i2' as [|it i2]; [discriminate|]. cbn [map] in E2. injection E2 as <- <-.
        exists i1, it, i2. auto. }
      destruct Hsp as (i1 & it & i2 & Ei & -> & -> & ->). apply fold_right_or in Hex. apply Exists_exists in Hex. destruct Hex as (q & Hq & Htg & HR).
      apply in_map_iff in Hq. destruct Hq as (p & <- & Hip). pose proof Hs as Hs'. rewrite Forall_forall in Hs', Hp. pose proof (all_std_head _ (Hs' p Hip)) as Hh.
      unfold rep_items in Hri. rewrite Ei in Hri, Hbi. apply Forall_app in Hri. apply Forall_app in Hbi. destruct Hri as [R1 R2], Hbi as [B1 B2].
      inversion R2 as [|? ? R3 _]; subst. inversion B2 as [|? ? B3 _]; subst.
      assert (Hpl : placed t16l16v rest (map ptab ies) i1) by (apply placed_so_far; assumption).
      assert (Htag : has_tag (ptab p) (fst it)) by (apply has_tag_iei; assumption).
      assert (En : lenN (items_for (ptab p) i1) = lenN (values_of (iei_of (sh p)) (map plain_item i1))).
      { rewrite (values_items p i1 Hh R1); unfold lenN, item; rewrite map_length; reflexivity. }
      assert (Ec : cap_of (head (ptab p)) = at_most (occ_of (sh p))) by (rewrite head_ptab, sh_occ; apply occ_cap, Hh).
      assert (Hin : In (ptab p) (map ptab ies)) by (apply in_map; exact Hip).
      destruct HR as [[Hc ->]|[Hc Hv]].
      * eapply FE_surplus; [reflexivity|exact Hpl|exact Hin|exact Htag|lia|reflexivity].
      * eapply FE_value; [reflexivity|exact Hpl|exact Hin|exact Htag|lia|].
        apply (Hp p Hip (Hs' p Hip) (ptab_tables_one _ _ Ht Hip) (snd it) rest e B3 Hr). exact Hv.
    + destruct (Hen1 Hne) as [t ->]. eapply FE_torn; [|reflexivity]. apply placed_so_far; assumption.
    + apply FE_missing; [apply placed_so_far; assumption|apply Hen0, Hnil| |reflexivity]. apply Hlow; [exact Hri|]. apply fold_right_or. exact Hex.
Qed.

Lemma err_iff_all p : err_iff p.
Proof.
  induction p as [h k|h l IH] using pcoding_ind'; intros Hs Ht v rest e Hb Hr.
  - cbn [ptab sh content_error dec_coding leaf_of lf_dec]. rewrite <- (ie_error k v rest e) by (intros _; exact Hr). rewrite bind_err. split.
    + intros [H|(x & _ & H)]; [exact H|discriminate].
    + intros H. left. exact H.
  - change (content_error (sh (PNest h l)) v e) with (body_error (map sh l) v e). destruct Hs as [_ Hs]. apply fold_right_and_Forall in Hs.
    destruct Ht as [_ Ht]. inversion Ht as [|? ? Ht1 _]; subst. cbn [ptab] in Ht1.
    assert (Hal : all_tables table_ok (map ptab l)).
    { cbn in Ht1. destruct Ht1 as [A B]. split; [exact A|]. apply fold_right_and_Forall in B. exact B. }
    rewrite <- (body_error_iff l v rest e IH Hs Hal Hb Hr). cbn [ptab dec_coding gtlvs_decode].
    change (map (fun d => mkEntry (head d) (dec_coding d)) (map ptab l)) with (map entry_of (map ptab l)). rewrite bind_err. split.
    + intros [H|(x & _ & H)]; [exact H|discriminate].
    + intros H. left. exact H.
Qed.

Theorem message_error t l d rest e : In (t, l) s_messages -> bytes_ok d -> In 0 rest ->
  (decode_tlv t (d ++ rest) (lenN d) = Err e <-> body_error l d e).
Proof.
  intros Hl Hb Hr. apply spec_tables in Hl. destruct Hl as (ies & Ht & -> & Hs). unfold decode_tlv, msg_table. rewrite Ht. cbn [option_map].
  apply body_error_iff; [apply Forall_forall; intros p _; apply err_iff_all|exact Hs|apply (tables_are_good _ _ Ht)|exact Hb|exact Hr].
Qed.
