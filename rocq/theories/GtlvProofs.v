(* GtlvProofs.v -- proofs about GtlvModel.v *)
From Verif Require Import Base BaseProofs GtlvModel GtlvSpec.

(* ---------------------------------------------------------------- tag compare *)

Lemma osmo_cmp_cases a b :
  a < b /\ osmo_cmp a b = (-1)%Z \/ a = b /\ osmo_cmp a b = 0%Z \/ b < a /\ osmo_cmp a b = 1%Z.
Proof.
  unfold osmo_cmp. destruct (a <? b) eqn:E1; [left; lia|].
  destruct (b <? a) eqn:E2; [right; right; lia|right; left; lia].
Qed.

Ltac cmp_cases :=
  repeat match goal with
  | |- context [osmo_cmp ?a ?b] =>
    let H := fresh "H" in let E := fresh "E" in
    destruct (osmo_cmp_cases a b) as [[H E]|[[H E]|[H E]]]; rewrite E in *; cbn [Z.eqb negb] in *
  end.

Lemma ti_cmp_eq0 a b :
  ti_cmp a b = 0%Z <->
  ti_tag a = ti_tag b /\ ti_ipres a = ti_ipres b /\ (ti_ipres a = true -> ti_inst a = ti_inst b).
Proof.
  unfold ti_cmp. cmp_cases; destruct (ti_ipres a), (ti_ipres b); cmp_cases; try (split; [lia|lia]);
  split; intros; repeat split; intros; try lia; try congruence; try tauto.
Qed.

Lemma ti_cmp_antisym a b : ti_cmp b a = (- ti_cmp a b)%Z.
Proof.
  unfold ti_cmp. cmp_cases; destruct (ti_ipres a), (ti_ipres b); cmp_cases; try reflexivity; try lia.
Qed.

Lemma ti_cmp_range a b : (ti_cmp a b = -1 \/ ti_cmp a b = 0 \/ ti_cmp a b = 1)%Z.
Proof. unfold ti_cmp. cmp_cases; destruct (ti_ipres a), (ti_ipres b); cmp_cases; lia. Qed.

Lemma ti_cmp_trans a b d : (ti_cmp a b <= 0 -> ti_cmp b d <= 0 -> ti_cmp a d <= 0)%Z.
Proof.
  unfold ti_cmp. intros H1 H2. revert H1 H2.
  cmp_cases; destruct (ti_ipres a), (ti_ipres b), (ti_ipres d); cmp_cases; lia.
Qed.

Lemma ti_match_refl a : ti_match a a = true.
Proof. unfold ti_match. apply Z.eqb_eq. apply ti_cmp_eq0. auto. Qed.
Lemma ti_match_true a b :
  ti_match a b = true <->
  ti_tag a = ti_tag b /\ ti_ipres a = ti_ipres b /\ (ti_ipres a = true -> ti_inst a = ti_inst b).
Proof. unfold ti_match. rewrite Z.eqb_eq. apply ti_cmp_eq0. Qed.
Lemma ti_match_sym a b : ti_match a b = ti_match b a.
Proof. unfold ti_match. rewrite (ti_cmp_antisym b a). lia. Qed.
Lemma ti_match_trans a b d : ti_match a b = true -> ti_match b d = true -> ti_match a d = true.
Proof.
  rewrite !ti_match_true. intros (H1 & H2 & H3) (H4 & H5 & H6). repeat split; try congruence.
  intros H. rewrite H3 by exact H. apply H6. congruence.
Qed.
Lemma ti_match_cong a b d : ti_match a b = true -> ti_match a d = ti_match b d.
Proof.
  intros H. destruct (ti_match b d) eqn:E.
  - eapply ti_match_trans; eassumption.
  - destruct (ti_match a d) eqn:E2; [|reflexivity].
    rewrite ti_match_sym in H. rewrite (ti_match_trans _ _ _ H E2) in E. discriminate.
Qed.

Lemma tag_inst_cmp_0 a b :
  tag_inst_cmp a b = 0%Z <->
  match a, b with
  | None, None => True
  | Some x, Some y => ti_tag x = ti_tag y /\ ti_ipres x = ti_ipres y /\ (ti_ipres x = true -> ti_inst x = ti_inst y)
  | _, _ => False
  end.
Proof. destruct a, b; cbn; [apply ti_cmp_eq0|lia|lia|tauto]. Qed.
Lemma tag_inst_cmp_antisym a b : tag_inst_cmp b a = (- tag_inst_cmp a b)%Z.
Proof. destruct a, b; cbn; try reflexivity. apply ti_cmp_antisym. Qed.
Lemma tag_inst_cmp_trans a b d :
  (tag_inst_cmp a b <= 0 -> tag_inst_cmp b d <= 0 -> tag_inst_cmp a d <= 0)%Z.
Proof. destruct a, b, d; cbn; try lia. apply ti_cmp_trans. Qed.

Lemma tag_inst_cmp_lt a b :
  (tag_inst_cmp a b < 0)%Z <->
  match a, b with
  | None, Some _ => True
  | Some x, Some y => ti_tag x < ti_tag y \/ (ti_tag x = ti_tag y /\
      ((ti_ipres x = false /\ ti_ipres y = true) \/ (ti_ipres x = true /\ ti_ipres y = true /\ ti_inst x < ti_inst y)))
  | _, None => False
  end.
Proof.
  destruct a as [x|], b as [y|]; cbn; try lia. unfold ti_cmp, osmo_cmp.
  destruct (N.ltb_spec (ti_tag x) (ti_tag y)), (N.ltb_spec (ti_tag y) (ti_tag x)); cbn; try lia.
  destruct (ti_ipres x), (ti_ipres y); change (1 <? 1) with false; change (0 <? 0) with false; change (0 <? 1) with true; change (1 <? 0) with false; cbn.
  - destruct (N.ltb_spec (ti_inst x) (ti_inst y)), (N.ltb_spec (ti_inst y) (ti_inst x));
      (split; [intros Hz; first [lia | right; split; [lia|]; right; repeat split; assumption]|]);
      intros [L|[_ [[L _]|(_ & _ & L)]]]; try discriminate L; lia.
  - split; [lia|]. intros [L|[_ [[L _]|(_ & L & _)]]]; try discriminate L; lia.
  - split; [|lia]. intros _. right. split; [lia|]. left. split; reflexivity.
  - split; [lia|]. intros [L|[_ [[_ L]|(L & _ & _)]]]; try discriminate L; lia.
Qed.

(* ---------------------------------------------------------------- the four formats *)

Lemma t8l8v_ok : cfg_ok t8l8v.
Proof.
  constructor; cbn [cfg_min cfg_load t8l8v].
  - lia.
  - intros m left H1 H2. destruct m as [|a [|b m]]; cbn [t8l8v_load]; rewrite ?lenN_cons, ?lenN_nil in H1; lia.
  - intros m rest left H1 H2. destruct m as [|a [|b m]]; rewrite ?lenN_cons, ?lenN_nil in H1; try lia. reflexivity.
Qed.
Lemma t16l16v_ok : cfg_ok t16l16v.
Proof.
  constructor; cbn [cfg_min cfg_load t16l16v].
  - lia.
  - intros m left H1 H2. destruct m as [|a [|b [|x [|y m]]]]; cbn [t16l16v_load]; rewrite ?lenN_cons, ?lenN_nil in H1; lia.
  - intros m rest left H1 H2.
    destruct m as [|a [|b [|x [|y m]]]]; rewrite ?lenN_cons, ?lenN_nil in H1; try lia. reflexivity.
Qed.
Lemma tliv_ok : cfg_ok tliv.
Proof.
  constructor; cbn [cfg_min cfg_load tliv].
  - lia.
  - intros m left H1 H2. destruct m as [|a [|b m]]; cbn [tliv_load]; rewrite ?lenN_cons, ?lenN_nil in H1; try lia.
    destruct (tliv_has_inst a); [|lia]. destruct (left <? 3) eqn:E; [exact I|].
    destruct m as [|i m]; rewrite ?lenN_nil in H1; lia.
  - intros m rest left H1 H2. destruct m as [|a [|b m]]; rewrite ?lenN_cons, ?lenN_nil in H1; try lia.
    cbn [app tliv_load]. destruct (tliv_has_inst a); [|reflexivity]. destruct (left <? 3) eqn:E; [reflexivity|].
    destruct m as [|i m]; rewrite ?lenN_nil in H1; [lia|reflexivity].
Qed.
Lemma txlxv_ok : cfg_ok txlxv.
Proof.
  constructor; cbn [cfg_min cfg_load txlxv].
  - lia.
  - intros m left H1 H2. destruct m as [|b0 m1]; cbn [txlxv_load]; rewrite ?lenN_cons, ?lenN_nil in H1; try lia.
    destruct (128 <=? b0) eqn:E0; cbn [bind].
    + destruct (left <? 2) eqn:E; [exact I|]. destruct m1 as [|b1 m2]; rewrite ?lenN_cons, ?lenN_nil in H1; [lia|].
      cbn [bind]. destruct (_ =? 1002); [lia|]. destruct (_ =? 123).
      * destruct (left <? 2 + 2) eqn:E1; [exact I|]. destruct m2 as [|a [|b m2]]; rewrite ?lenN_cons, ?lenN_nil in H1; lia.
      * destruct (left <? 2 + 1) eqn:E1; [exact I|]. destruct m2 as [|a m2]; rewrite ?lenN_cons, ?lenN_nil in H1; lia.
    + destruct (_ =? 1002); [lia|]. destruct (_ =? 123).
      * destruct (left <? 1 + 2) eqn:E1; [exact I|]. destruct m1 as [|a [|b m2]]; rewrite ?lenN_cons, ?lenN_nil in H1; lia.
      * destruct (left <? 1 + 1) eqn:E1; [exact I|]. destruct m1 as [|a m2]; rewrite ?lenN_cons, ?lenN_nil in H1; lia.
  - intros m rest left H1 H2. destruct m as [|b0 m1]; rewrite ?lenN_cons, ?lenN_nil in H1; try lia.
    cbn [app txlxv_load].
    destruct (128 <=? b0) eqn:E0; cbn [bind].
    + destruct (left <? 2) eqn:E; [reflexivity|]. destruct m1 as [|b1 m2]; rewrite ?lenN_cons, ?lenN_nil in H1; [lia|].
      cbn [app bind]. destruct (_ =? 1002); [reflexivity|]. destruct (_ =? 123).
      * destruct (left <? 2 + 2) eqn:E1; [reflexivity|]. destruct m2 as [|a [|b m2]]; rewrite ?lenN_cons, ?lenN_nil in H1; try lia; reflexivity.
      * destruct (left <? 2 + 1) eqn:E1; [reflexivity|]. destruct m2 as [|a m2]; rewrite ?lenN_cons, ?lenN_nil in H1; try lia; reflexivity.
    + destruct (_ =? 1002); [reflexivity|]. destruct (_ =? 123).
      * destruct (left <? 1 + 2) eqn:E1; [reflexivity|]. destruct m1 as [|a [|b m2]]; rewrite ?lenN_cons, ?lenN_nil in H1; try lia; reflexivity.
      * destruct (left <? 1 + 1) eqn:E1; [reflexivity|]. destruct m1 as [|a m2]; rewrite ?lenN_cons, ?lenN_nil in H1; try lia; reflexivity.
Qed.

Lemma be_put_2 x : x < 65536 -> be_put 2 x = [x / 256; x mod 256].
Proof. intros H. cbn [be_put app]. f_equal. lia. Qed.

Lemma t8l8v_rt : cfg_rt t8l8v rep_t8l8v hdr_t8l8v.
Proof.
  constructor; unfold hdr_t8l8v; cbn [cfg_min cfg_load cfg_store t8l8v];
  intros ti len; [intros avail (t & -> & Ht & Hl) Ha|intros avail (t & -> & Ht & Hl) Ha|intros avail (t & -> & Ht & Hl) Ha
                 |intros rest left (t & -> & Ht & Hl) Ha|intros _];
  change (lenN [_; _]) with 2 in *; try lia; unfold t8l8v_store; cbn [ti_tag ti_of_tag].
  - destruct (255 <? t) eqn:E1; [lia|]. destruct (255 <? len) eqn:E2; [lia|]. destruct (avail <? 2) eqn:E3; [lia|reflexivity].
  - destruct (255 <? t) eqn:E1; [lia|]. destruct (255 <? len) eqn:E2; [lia|]. destruct (avail <? 2) eqn:E3; [|lia]. eauto.
  - destruct (255 <? t) eqn:E1; [lia|]. destruct (255 <? 0) eqn:E2; [lia|]. destruct (avail <? 2) eqn:E3; [lia|]. eexists; split; reflexivity.
  - reflexivity.
Qed.

Lemma t16l16v_rt : cfg_rt t16l16v rep_t16l16v hdr_t16l16v.
Proof.
  constructor; unfold hdr_t16l16v; cbn [cfg_min cfg_load cfg_store t16l16v];
  intros ti len; [intros avail (t & -> & Ht & Hl) Ha|intros avail (t & -> & Ht & Hl) Ha|intros avail (t & -> & Ht & Hl) Ha
                 |intros rest left (t & -> & Ht & Hl) Ha|intros _];
  change (lenN [_; _; _; _]) with 4 in *; try lia; unfold t16l16v_store; cbn [ti_tag ti_of_tag].
  - destruct (65535 <? t) eqn:E1; [lia|]. destruct (65535 <? len) eqn:E2; [lia|]. destruct (avail <? 4) eqn:E3; [lia|].
    rewrite !be_put_2 by assumption. reflexivity.
  - destruct (65535 <? t) eqn:E1; [lia|]. destruct (65535 <? len) eqn:E2; [lia|]. destruct (avail <? 4) eqn:E3; [|lia]. eauto.
  - destruct (65535 <? t) eqn:E1; [lia|]. destruct (65535 <? 0) eqn:E2; [lia|]. destruct (avail <? 4) eqn:E3; [lia|].
    eexists; split; [reflexivity|]. rewrite lenN_app, !be_put_lenN. reflexivity.
  - unfold t16l16v_load. cbn [app]. replace (t / 256 * 256 + t mod 256) with t by lia.
    replace (len / 256 * 256 + len mod 256) with len by lia. reflexivity.
Qed.

Lemma has_inst_iff t : tliv_has_inst t = true <-> In t [5; 7; 9].
Proof.
  unfold tliv_has_inst. rewrite !Bool.orb_true_iff, !N.eqb_eq. cbn [In]. split; [intros [[->| ->]| ->]; auto|intros [<-|[<-|[<-|[]]]]; auto].
Qed.
Lemma has_inst_eq t ip : (ip = true <-> In t [5; 7; 9]) <-> ip = tliv_has_inst t.
Proof. rewrite <- has_inst_iff. split; [intros H; apply Bool.eq_true_iff_eq; exact H|intros ->; reflexivity]. Qed.
Lemma tliv_rt : cfg_rt tliv rep_tliv hdr_tliv.
Proof.
  constructor; unfold hdr_tliv; cbn [cfg_min cfg_load cfg_store tliv]; intros [t ip i] len;
  unfold rep_tliv; cbn [ti_tag ti_ipres ti_inst];
  [intros avail|intros avail|intros avail|intros rest left|]; intros (Ht & Hl & Hi & Hp & H0); match goal with |- _ <= _ => idtac | _ => intros Ha end;
  apply (proj1 (has_inst_eq _ _)) in Hp; subst ip; unfold tliv_store; cbn [ti_tag ti_ipres ti_inst].
  - destruct (255 <? t) eqn:E1; [lia|]. destruct (255 <? len) eqn:E2; [lia|].
    destruct (tliv_has_inst t); change (lenN [_; _]) with 2 in *; change (lenN [_; _; _]) with 3 in *;
    (destruct (avail <? 2) eqn:E3; [lia|]); [|reflexivity].
    destruct (avail <? 3) eqn:E4; [lia|]. cbn [negb]. destruct (255 <? i) eqn:E5; [lia|reflexivity].
  - destruct (255 <? t) eqn:E1; [lia|]. destruct (255 <? len) eqn:E2; [lia|].
    destruct (tliv_has_inst t); change (lenN [_; _]) with 2 in *; change (lenN [_; _; _]) with 3 in *;
    (destruct (avail <? 2) eqn:E3; [eauto|]); [|lia].
    destruct (avail <? 3) eqn:E4; [eauto|lia].
  - destruct (255 <? t) eqn:E1; [lia|]. destruct (255 <? 0) eqn:E2; [lia|].
    destruct (tliv_has_inst t); change (lenN [_; _]) with 2 in *; change (lenN [_; _; _]) with 3 in *;
    (destruct (avail <? 2) eqn:E3; [lia|]); [|eexists; split; reflexivity].
    destruct (avail <? 3) eqn:E4; [lia|]. cbn [negb]. destruct (255 <? i) eqn:E5; [lia|]. eexists; split; reflexivity.
  - unfold tliv_load. destruct (tliv_has_inst t) eqn:E; cbn [app]; rewrite E;
    change (lenN [_; _]) with 2 in *; change (lenN [_; _; _]) with 3 in *.
    + destruct (left <? 3) eqn:E3; [lia|reflexivity].
    + rewrite H0 by reflexivity. reflexivity.
  - destruct (tliv_has_inst t); change (lenN [_; _]) with 2 in *; change (lenN [_; _; _]) with 3 in *; lia.
Qed.

Lemma txlxv_rt : cfg_rt txlxv rep_txlxv hdr_txlxv.
Proof.
  assert (Htag : forall t, t < 32768 -> (t / 128) mod 256 = t / 128) by (intros; lia).
  assert (L1 : forall a : N, lenN [a] = 1) by reflexivity.
  assert (L2 : forall a b : N, lenN [a; b] = 2) by reflexivity.
  constructor; unfold hdr_txlxv; cbn [cfg_min cfg_load cfg_store txlxv]; intros ti len;
  [intros avail|intros avail|intros avail|intros rest left|]; intros (t & -> & Ht & Hl); cbn [ti_tag ti_of_tag];
  match goal with |- _ <= _ => idtac | _ => intros Ha end; try unfold txlxv_store; cbn [ti_tag ti_of_tag]; try rewrite Htag by assumption;
  rewrite ?lenN_app in *.
  - revert Hl Ha.
    destruct (t <? 128) eqn:E0, (t =? 1002) eqn:E2, (t =? 123) eqn:E3; intros Hl Ha; cbv zeta;
    rewrite ?be_put_2 by lia; rewrite ?L1, ?L2, ?lenN_nil, ?app_nil_r in *; try lia;
    repeat match goal with |- context [if ?a <? ?b then _ else _] => destruct (N.ltb_spec a b); [lia|] end; reflexivity.
  - revert Hl Ha.
    destruct (t <? 128) eqn:E0, (t =? 1002) eqn:E2, (t =? 123) eqn:E3; intros Hl Ha; cbv zeta;
    rewrite ?L1, ?L2, ?lenN_nil in *; try lia;
    repeat match goal with |- context [if ?a <? ?b then _ else _] => destruct (N.ltb_spec a b); [eauto|] end; lia.
  - revert Hl Ha.
    destruct (t <? 128) eqn:E0, (t =? 1002) eqn:E2, (t =? 123) eqn:E3; intros Hl Ha; cbv zeta;
    rewrite ?be_put_2 by lia; rewrite ?L1, ?L2, ?lenN_nil in *; try lia;
    repeat match goal with |- context [if ?a <? ?b then _ else _] => destruct (N.ltb_spec a b); [lia|] end;
    eexists; (split; [reflexivity|]); rewrite ?lenN_app, ?L1, ?L2; lia.
  - unfold txlxv_load. destruct (t <? 128) eqn:E0; cbn [app].
    + destruct (128 <=? t) eqn:E1; [lia|]. cbn [bind]. destruct (t =? 1002) eqn:E2; [lia|].
      destruct (t =? 123) eqn:E3; cbn [app]; rewrite ?L1, ?L2 in *.
      * destruct (left <? 1 + 2) eqn:E4; [lia|]. replace (len / 256 * 256 + len mod 256) with len by lia. reflexivity.
      * destruct (left <? 1 + 1) eqn:E4; [lia|]. reflexivity.
    + destruct (128 <=? 128 + t mod 128) eqn:E1; [|lia]. rewrite ?L1, ?L2 in *.
      destruct (left <? 2) eqn:E4; [lia|]. cbn [bind].
      replace (t / 128 * 128 + (128 + t mod 128) mod 128) with t by lia.
      destruct (t =? 1002) eqn:E2; [rewrite Hl; reflexivity|].
      destruct (t =? 123) eqn:E3; [lia|]. cbn [app]. rewrite ?L1, ?L2 in *.
      destruct (left <? 2 + 1) eqn:E5; [lia|]. reflexivity.
  - destruct (t <? 128) eqn:E0; rewrite ?L1, ?L2 in *; lia.
Qed.

(* exact error behaviour of the stock store functions (C02, C03) *)
Lemma t8l8v_store_cases avail ti len :
  (255 < ti_tag ti /\ cfg_store t8l8v avail ti len = Err EINVAL)
  \/ (ti_tag ti <= 255 /\ 255 < len /\ cfg_store t8l8v avail ti len = Err EMSGSIZE)
  \/ (ti_tag ti <= 255 /\ len <= 255 /\ avail < 2 /\ cfg_store t8l8v avail ti len = Err ENOSPC)
  \/ (ti_tag ti <= 255 /\ len <= 255 /\ 2 <= avail /\ cfg_store t8l8v avail ti len = Ok [ti_tag ti; len]
      /\ forall rest left, cfg_load t8l8v ([ti_tag ti; len] ++ rest) left = Ok (ti_of_tag (ti_tag ti), len, 2)).
Proof.
  cbn [cfg_store cfg_load t8l8v]. unfold t8l8v_store.
  destruct (255 <? ti_tag ti) eqn:E1; [left; split; [lia|reflexivity]|right].
  destruct (255 <? len) eqn:E2; [left; repeat split; lia|right].
  destruct (avail <? 2) eqn:E3; [left; repeat split; lia|right]. repeat split; try lia.
Qed.
Lemma t16l16v_store_cases avail ti len :
  (65535 < ti_tag ti /\ cfg_store t16l16v avail ti len = Err EINVAL)
  \/ (ti_tag ti <= 65535 /\ 65535 < len /\ cfg_store t16l16v avail ti len = Err EMSGSIZE)
  \/ (ti_tag ti <= 65535 /\ len <= 65535 /\ avail < 4 /\ cfg_store t16l16v avail ti len = Err ENOSPC)
  \/ (ti_tag ti <= 65535 /\ len <= 65535 /\ 4 <= avail /\
      let h := [ti_tag ti / 256; ti_tag ti mod 256; len / 256; len mod 256] in
      cfg_store t16l16v avail ti len = Ok h /\ bytes_ok h
      /\ forall rest left, cfg_load t16l16v (h ++ rest) left = Ok (ti_of_tag (ti_tag ti), len, 4)).
Proof.
  cbn [cfg_store cfg_load t16l16v]. unfold t16l16v_store.
  destruct (65535 <? ti_tag ti) eqn:E1; [left; split; [lia|reflexivity]|right].
  destruct (65535 <? len) eqn:E2; [left; repeat split; lia|right].
  destruct (avail <? 4) eqn:E3; [left; repeat split; lia|right]. repeat split; try lia.
  - rewrite !be_put_2 by lia. reflexivity.
  - unfold bytes_ok, byte_ok. repeat constructor; lia.
  - intros rest left. unfold t16l16v_load. cbn [app].
    replace (ti_tag ti / 256 * 256 + ti_tag ti mod 256) with (ti_tag ti) by lia.
    replace (len / 256 * 256 + len mod 256) with len by lia. reflexivity.
Qed.

(* ---------------------------------------------------------------- load_next *)

(* loader state is consistent: position inside the source, source inside the memory *)
Definition linv (g : load) : Prop := ld_pos g <= ld_srclen g /\ ld_srclen g <= lenN (ld_mem g).

Lemma load_next_cases c g g' rc :
  cfg_ok c -> linv g -> load_next c g = (g', rc) ->
  ld_mem g' = ld_mem g /\ ld_srclen g' = ld_srclen g /\
  ((ld_pos g = ld_srclen g /\ rc = Ok tt /\ ld_val g' = None)
   \/ (exists v, ld_pos g < ld_srclen g /\ rc = Ok tt /\ ld_val g' = Some v
         /\ ld_pos g + cfg_min c <= v /\ v + ld_len g' <= ld_srclen g
         /\ cfg_load c (dropN (ld_pos g) (ld_mem g)) (ld_srclen g - ld_pos g) = Ok (ld_ti g', ld_len g', v - ld_pos g))
   \/ (ld_pos g < ld_srclen g /\ exists e, rc = Err e)).
Proof.
  intros Hc [Hp Hm] H. unfold load_next, next_tl_valid in H.
  change (match ld_val g with None => 0 | Some v => v + ld_len g end) with (ld_pos g) in H.
  destruct (ld_srclen g <? ld_pos g) eqn:E1; [lia|].
  destruct (negb (ld_srclen g - ld_pos g =? 0) && _) eqn:E2.
  { inversion H; subst; clear H. repeat split. right; right. split; [lia|eauto]. }
  destruct (ld_srclen g - ld_pos g =? 0) eqn:E3.
  { inversion H; subst; clear H. cbn. repeat split. left. repeat split; lia. }
  cbn [negb andb] in E2. apply orb_false_iff in E2. destruct E2 as [E2 _].
  pose proof (ok_load c Hc (dropN (ld_pos g) (ld_mem g)) (ld_srclen g - ld_pos g)) as Hld.
  rewrite lenN_dropN in Hld. specialize (Hld ltac:(lia) ltac:(lia)).
  destruct (cfg_load c (dropN (ld_pos g) (ld_mem g)) (ld_srclen g - ld_pos g)) as [[[ti len] h]|e|u] eqn:E4;
    [|inversion H; subst; cbn; repeat split; right; right; split; [lia|eauto]|contradiction].
  destruct (ld_srclen g <? ld_pos g + h + len) eqn:E5; inversion H; subst; clear H; cbn.
  - repeat split. right; right. split; [lia|eauto].
  - repeat split. right; left. exists (ld_pos g + h). repeat split; try lia. repeat f_equal. lia.
Qed.

Lemma load_next_inv c g g' : cfg_ok c -> linv g -> load_next c g = (g', Ok tt) -> linv g'.
Proof.
  intros Hc Hi H. destruct (load_next_cases _ _ _ _ Hc Hi H) as (Hm & Hs & Hcase).
  unfold linv in *. rewrite Hm, Hs. unfold ld_pos at 1.
  destruct Hcase as [(_ & _ & ->)|[(v & H1 & _ & -> & H2 & H3 & _)|(_ & e & [=])]]; lia.
Qed.

Lemma load_next_not_ub c g : cfg_ok c -> linv g -> forall u, snd (load_next c g) <> UB u.
Proof.
  intros Hc Hi u. destruct (load_next c g) as [g' rc] eqn:E. cbn.
  destruct (load_next_cases _ _ _ _ Hc Hi E) as (_ & _ & [(_ & -> & _)|[(v & _ & -> & _)|(_ & e & ->)]]); congruence.
Qed.

(* by_tag_loop: terminates, and characterisation *)
Lemma by_tag_loop_spec c fuel g ti :
  cfg_ok c -> linv g -> (N.to_nat (ld_srclen g - ld_pos g) < fuel)%nat ->
  match by_tag_loop fuel c g ti with
  | Ok g' => ld_mem g' = ld_mem g /\ ld_srclen g' = ld_srclen g /\ linv g' /\ ti_match (ld_ti g') ti = true
             /\ exists v, ld_val g' = Some v /\ ld_pos g < v
  | Err _ => True
  | UB _ => False
  end.
Proof.
  intros Hc. revert g. induction fuel as [|f IH]; intros g Hi Hf; [lia|].
  cbn [by_tag_loop]. destruct (load_next c g) as [g' rc] eqn:E.
  destruct (load_next_cases _ _ _ _ Hc Hi E) as (Hm & Hs & [(_ & -> & Hv)|[(v & H1 & -> & Hv & H2 & H3 & _)|(_ & e & ->)]]).
  - rewrite Hv. exact I.
  - rewrite Hv. pose proof (ok_min c Hc) as Hmin.
    assert (Hi' : linv g') by (eapply load_next_inv; eassumption).
    destruct (ti_match (ld_ti g') ti) eqn:Et.
    + repeat split; try assumption; try apply Hi'. exists v. split; [assumption|lia].
    + assert (Hp : ld_pos g' = v + ld_len g') by (unfold ld_pos; rewrite Hv; reflexivity).
      specialize (IH g' Hi'). rewrite Hm, Hs in IH.
      assert (Hf' : (N.to_nat (ld_srclen g - ld_pos g') < f)%nat) by lia. specialize (IH Hf').
      destruct (by_tag_loop f c g' ti) as [g2|e|u]; auto.
      destruct IH as (A1 & A2 & A3 & A4 & v2 & A5 & A6).
      repeat split; try assumption; try apply A3. exists v2; split; [assumption|lia].
  - exact I.
Qed.

Lemma by_tag_inst_fuel c g ti : cfg_ok c -> linv g -> forall u, snd (load_next_by_tag_inst c g ti) <> UB u.
Proof.
  intros Hc Hi u. unfold load_next_by_tag_inst.
  pose proof (by_tag_loop_spec c (budget (ld_mem g) (ld_srclen g)) g ti Hc Hi) as H.
  specialize (H ltac:(destruct Hi; unfold budget; lia)). destruct Hi as [Hp Hm].
  destruct (by_tag_loop _ c g ti); cbn; congruence || contradiction.
Qed.

Lemma load_next_past c g : ld_srclen g < ld_pos g -> load_next c g = (g, Err ENOSPC).
Proof. intros H. unfold load_next, next_tl_valid. fold (ld_pos g). destruct (ld_srclen g <? ld_pos g) eqn:E; [reflexivity|lia]. Qed.
Lemma by_tag_past c g ti : ld_srclen g < ld_pos g -> load_next_by_tag_inst c g ti = (g, Err ENOSPC).
Proof. intros H. unfold load_next_by_tag_inst, budget. cbn [by_tag_loop]. rewrite load_next_past by exact H. reflexivity. Qed.
(* an error of load_next() leaves the loader where it is or behind the end of the data *)
Lemma load_next_err c g g' e : load_next c g = (g', Err e) -> ld_mem g' = ld_mem g /\ ld_srclen g' = ld_srclen g /\ (ld_pos g' = ld_pos g \/ ld_srclen g < ld_pos g').
Proof.
  intros H. unfold load_next in H. destruct (next_tl_valid c g) as [[s l]|x|u] eqn:En; [|injection H as <- _; auto|discriminate].
  destruct (l =? 0); [discriminate|]. destruct (cfg_load c (dropN s (ld_mem g)) l) as [[[ti len] h]|x|u]; [|injection H as <- _; auto|discriminate].
  destruct (ld_srclen g <? s + h + len) eqn:E; [|discriminate]. injection H as <- _. split; [reflexivity|]. split; [reflexivity|]. right. unfold ld_pos. cbn. lia.
Qed.
Lemma load_next_sticky c g g' e : load_next c g = (g', Err e) -> exists e', load_next c g' = (g', Err e').
Proof.
  intros H. unfold load_next in H. destruct (next_tl_valid c g) as [[s l]|x|u] eqn:En; [| |discriminate].
  2:{ injection H as <- <-. exists x. unfold load_next. rewrite En. reflexivity. }
  destruct (l =? 0) eqn:El; [discriminate|]. destruct (cfg_load c (dropN s (ld_mem g)) l) as [[[ti len] h]|x|u] eqn:Ec; [| |discriminate].
  - destruct (ld_srclen g <? s + h + len) eqn:E; [|discriminate]. injection H as <- _. exists ENOSPC. apply load_next_past. unfold ld_pos. cbn. lia.
  - injection H as <- _. exists x. unfold load_next.
    assert (En' : next_tl_valid c (mkLoad (ld_mem g) (ld_srclen g) (mkTi 0 false 0) (ld_len g) (ld_val g)) = Ok (s, l)) by exact En.
    rewrite En', El. cbn [ld_mem]. rewrite Ec. reflexivity.
Qed.
Lemma reach_linv c m g : cfg_ok c -> reach c m g -> (linv g \/ ld_srclen g < ld_pos g) /\ ld_mem g = m /\ ld_srclen g = lenN m.
Proof.
  intros Hc H. induction H as [|g H IH|g g' rc H IH Hn _|g g' ti rc H IH Hn].
  - unfold linv, ld_pos; cbn. split; [left; split; lia|split; reflexivity].
  - destruct IH as (_ & H3 & H4). cbn [ld_mem ld_srclen]. split; [|split; assumption]. left. unfold linv, ld_pos. cbn. rewrite H3, H4. lia.
  - destruct IH as ([Hi|Hi] & H3 & H4).
    + destruct (load_next_cases _ _ _ _ Hc Hi Hn) as (Hm & Hs & _). rewrite Hm, Hs. split; [|auto]. destruct rc as [[]|e|u].
      * left. exact (load_next_inv _ _ _ Hc Hi Hn).
      * destruct (load_next_err _ _ _ _ Hn) as (_ & _ & [E|E]); [left; unfold linv in *; rewrite Hm, Hs, E; exact Hi|right; lia].
      * destruct (load_next_not_ub c g Hc Hi u). rewrite Hn. reflexivity.
    + rewrite load_next_past in Hn by exact Hi. injection Hn as <- _. auto.
  - destruct IH as ([Hi|Hi] & H3 & H4); [|rewrite by_tag_past in Hn by exact Hi; injection Hn as <- _; auto].
    unfold load_next_by_tag_inst in Hn.
    pose proof (by_tag_loop_spec c (budget (ld_mem g) (ld_srclen g)) g ti Hc Hi) as Hl.
    destruct (by_tag_loop _ c g ti) as [g2|e|u]; inversion Hn; subst; auto.
    pose proof Hi as [Hp Hm]. specialize (Hl ltac:(unfold budget; lia)).
    destruct Hl as (A1 & A2 & A3 & _). rewrite A1, A2. auto.
Qed.
Lemma by_tag_reach c m g ti u : cfg_ok c -> reach c m g -> snd (load_next_by_tag_inst c g ti) <> UB u.
Proof.
  intros Hc Hr. destruct (reach_linv c m g Hc Hr) as ([Hi|Hi] & _); [exact (by_tag_inst_fuel c g ti Hc Hi u)|rewrite by_tag_past by exact Hi; discriminate].
Qed.

(* ---------------------------------------------------------------- iteration *)

Lemma load_all_safe c fuel g :
  cfg_ok c -> linv g -> ((ld_srclen g - ld_pos g) / cfg_min c < N.of_nat fuel) ->
  match load_all fuel c g with UB _ => False | _ => True end.
Proof.
  intros Hc. revert g. induction fuel as [|f IH]; intros g Hi Hf; [exfalso; apply (N.nlt_0_r _ Hf)|].
  cbn [load_all]. destruct (load_next c g) as [g' rc] eqn:E.
  destruct (load_next_cases _ _ _ _ Hc Hi E) as (Hm & Hs & [(_ & -> & Hv)|[(v & H1 & -> & Hv & H2 & H3 & _)|(_ & e & ->)]]);
    [rewrite Hv; exact I| |exact I].
  rewrite Hv. assert (Hi' : linv g') by (eapply load_next_inv; eassumption).
  destruct (rdN_not_ub (ld_len g') (dropN v (ld_mem g'))) as (l & -> & _).
  { rewrite lenN_dropN, Hm. destruct Hi. lia. }
  cbn [bind]. specialize (IH g' Hi').
  assert (Hp : ld_pos g' = v + ld_len g') by (unfold ld_pos; rewrite Hv; reflexivity).
  pose proof (ok_min c Hc) as Hmin.
  assert (Hf' : (ld_srclen g' - ld_pos g') / cfg_min c < N.of_nat f).
  { rewrite Hs, Hp.
    assert (Hx : (ld_srclen g - (v + ld_len g')) / cfg_min c + 1 <= (ld_srclen g - ld_pos g) / cfg_min c).
    { rewrite <- N.div_add by (clear -Hmin; lia). apply N.div_le_mono; [clear -Hmin; lia|]. clear Hf. lia. }
    revert Hx Hf. generalize ((ld_srclen g - (v + ld_len g')) / cfg_min c) as X, ((ld_srclen g - ld_pos g) / cfg_min c) as Y.
    clear. intros X Y. lia. }
  specialize (IH Hf'). destruct (load_all f c g') as [r|e|u]; cbn; auto.
Qed.

Lemma budget_all m : budget m (lenN m) = S (length m).
Proof. unfold budget, lenN. rewrite N.min_id, Nat2N.id. reflexivity. Qed.
Lemma budget_app d rest : budget (d ++ rest) (lenN d) = S (length d).
Proof. unfold budget. rewrite lenN_app, N.min_l by lia. unfold lenN. rewrite Nat2N.id. reflexivity. Qed.



Lemma load_all_fuel_mono c f1 f2 g :
  (forall u, load_all f1 c g = UB u -> u <> OutOfFuel) -> (f1 <= f2)%nat -> load_all f2 c g = load_all f1 c g.
Proof.
  revert f2 g. induction f1 as [|f1 IH]; intros f2 g Hn Hle.
  - exfalso. apply (Hn OutOfFuel); reflexivity.
  - destruct f2 as [|f2]; [lia|]. cbn [load_all] in *. destruct (load_next c g) as [g' [[]|e|u]]; try reflexivity.
    destruct (ld_val g') as [v|]; [|reflexivity].
    destruct (rdN (ld_len g') (dropN v (ld_mem g'))) as [val|e|u]; try reflexivity. cbn [bind] in *.
    rewrite (IH f2 g'); [reflexivity| |lia].
    intros u Hu. apply Hn. rewrite Hu. reflexivity.
Qed.

Lemma parse_terminates c m :
  cfg_ok c ->
  load_all (parse_fuel c m) c (load_start m (lenN m)) = parse c m (lenN m)
  /\ forall u, parse c m (lenN m) <> UB u.
Proof.
  intros Hc. unfold parse, parse_fuel. rewrite budget_all.
  assert (Hs : match load_all (S (N.to_nat (lenN m / cfg_min c))) c (load_start m (lenN m)) with UB _ => False | _ => True end).
  { apply load_all_safe; [assumption|unfold linv, ld_pos; cbn; lia|]. unfold ld_pos; cbn. rewrite N.sub_0_r. rewrite Nat2N.inj_succ, N2Nat.id. apply N.lt_succ_diag_r. }
  assert (Heq : load_all (S (length m)) c (load_start m (lenN m))
                = load_all (S (N.to_nat (lenN m / cfg_min c))) c (load_start m (lenN m))).
  { apply load_all_fuel_mono.
    - intros u Hu. rewrite Hu in Hs. contradiction.
    - pose proof (ok_min c Hc). unfold lenN.
      assert (Hd : N.of_nat (length m) / cfg_min c <= N.of_nat (length m) / 1) by (apply N.div_le_compat_l; lia).
      rewrite N.div_1_r in Hd. revert Hd. generalize (N.of_nat (length m) / cfg_min c) as X. clear. intros X. lia. }
  split; [symmetry; exact Heq|]. intros u Hu. rewrite Heq in Hu. rewrite Hu in Hs. exact Hs.
Qed.

(* forward direction of the round trip: a loader positioned before serialised items yields them *)
Lemma load_next_ser c rep hdr g pre it post rest :
  cfg_rt c rep hdr -> rep (fst it) (lenN (snd it)) ->
  ld_mem g = pre ++ (ser1 hdr it ++ post) ++ rest ->
  ld_pos g = lenN pre -> ld_srclen g = lenN pre + lenN (ser1 hdr it ++ post) -> 1 <= cfg_min c ->
  load_next c g =
  (mkLoad (ld_mem g) (ld_srclen g) (fst it) (lenN (snd it)) (Some (lenN pre + lenN (hdr (fst it) (lenN (snd it))))), Ok tt).
Proof.
  intros Hrt Hrep Hmem Hpos Hsrc Hmin1. unfold load_next, next_tl_valid.
  change (match ld_val g with None => 0 | Some v => v + ld_len g end) with (ld_pos g). rewrite Hpos.
  pose proof (rt_min _ _ _ Hrt _ _ Hrep) as Hmin.
  rewrite Hsrc. unfold ser1 in *. rewrite !lenN_app in *.
  dif E1; [lia|]. dif E2; [lia|]. dif E3; [lia|].
  rewrite Hmem, dropN_app. rewrite <- !app_assoc.
  erewrite rt_load by (eauto; lia). cbn [fst snd].
  dif E4; [lia|]. reflexivity.
Qed.

Lemma load_next_end c g :
  ld_pos g = ld_srclen g ->
  load_next c g = (mkLoad (ld_mem g) (ld_srclen g) (ld_ti g) (ld_len g) None, Ok tt).
Proof.
  intros H. unfold load_next, next_tl_valid.
  change (match ld_val g with None => 0 | Some v => v + ld_len g end) with (ld_pos g). rewrite H, N.sub_diag.
  dif E1; [lia|]. reflexivity.
Qed.

Lemma load_all_ser c rep hdr items : forall fuel g pre rest,
  cfg_rt c rep hdr -> 1 <= cfg_min c -> rep_items rep items ->
  ld_mem g = pre ++ ser hdr items ++ rest ->
  ld_pos g = lenN pre -> ld_srclen g = lenN pre + lenN (ser hdr items) ->
  (length items < fuel)%nat ->
  load_all fuel c g = Ok items.
Proof.
  induction items as [|it items IH]; intros fuel g pre rest Hrt Hmin Hrep Hmem Hpos Hsrc Hf;
    (destruct fuel as [|f]; [lia|]); cbn [load_all].
  - cbn [ser map concat] in *. rewrite lenN_nil in Hsrc. rewrite load_next_end by lia. reflexivity.
  - inversion_clear Hrep as [|? ? Hr Hrest]. change (ser hdr (it :: items)) with (ser1 hdr it ++ ser hdr items) in *.
    erewrite load_next_ser by eauto. cbn [ld_val ld_len ld_mem ld_ti].
    rewrite Hmem. unfold ser1 at 1. rewrite <- !app_assoc.
    replace (lenN pre + lenN (hdr (fst it) (lenN (snd it)))) with (lenN (pre ++ hdr (fst it) (lenN (snd it)))) by apply lenN_app.
    rewrite (app_assoc pre), dropN_app, rdN_app. cbn [bind].
    erewrite IH with (pre := pre ++ ser1 hdr it); [destruct it; reflexivity| | | | | | |]; eauto; cbn [ld_mem ld_srclen ld_val ld_len].
    + unfold ser1. rewrite <- !app_assoc. reflexivity.
    + unfold ld_pos; cbn. unfold ser1. rewrite !lenN_app. lia.
    + rewrite Hsrc, !lenN_app. lia.
    + cbn [length] in Hf. lia.
Qed.

Lemma ser_length_ge c rep hdr items :
  cfg_rt c rep hdr -> 1 <= cfg_min c -> rep_items rep items -> (length items <= length (ser hdr items))%nat.
Proof.
  intros Hrt Hmin H. induction H as [|it items Hr H IH]; [cbn; lia|].
  change (ser hdr (it :: items)) with (ser1 hdr it ++ ser hdr items). cbn [length]. unfold ser1. rewrite !app_length.
  pose proof (rt_min _ _ _ Hrt _ _ Hr) as Hm. unfold lenN in Hm at 1. lia.
Qed.

Lemma parse_ser c rep hdr items rest :
  cfg_rt c rep hdr -> 1 <= cfg_min c -> rep_items rep items ->
  parse c (ser hdr items ++ rest) (lenN (ser hdr items)) = Ok items.
Proof.
  intros Hrt Hmin Hr. unfold parse.
  pose proof (ser_length_ge _ _ _ _ Hrt Hmin Hr) as Hl.
  apply (load_all_ser c rep hdr items _ (load_start (ser hdr items ++ rest) (lenN (ser hdr items))) [] rest); auto.
  rewrite budget_app. lia.
Qed.

(* the encoding side *)
Lemma overwrite_mid a b b' d : lenN b = lenN b' -> overwrite (a ++ b ++ d) (lenN a) b' = a ++ b' ++ d.
Proof.
  intros H. unfold overwrite. rewrite takeN_app. f_equal. f_equal.
  rewrite app_assoc. apply dropN_app'. rewrite lenN_app. lia.
Qed.

Lemma put_item_ser c rep hdr p it :
  cfg_rt c rep hdr -> rep (fst it) (lenN (snd it)) ->
  lenN (pt_buf p) + lenN (ser1 hdr it) <= pt_cap p ->
  exists l, put_item c p it = Ok (mkPut (pt_buf p ++ ser1 hdr it) (pt_cap p) l).
Proof.
  intros Hrt Hrep Hcap. unfold ser1 in *. rewrite lenN_app in Hcap.
  unfold put_item, put_tli, put_update_tl, put_value, tailroom.
  destruct (rt_store0 _ _ _ Hrt _ _ (pt_cap p - lenN (pt_buf p)) Hrep) as (h0 & Hs0 & Hl0); [lia|].
  rewrite Hs0. destruct (_ <? lenN h0) eqn:E1; [lia|]. cbn [bind pt_buf pt_cap pt_last].
  rewrite lenN_app. destruct (_ <? lenN (snd it)) eqn:E2; [lia|]. cbn [bind pt_buf pt_cap pt_last].
  rewrite !lenN_app.
  replace (lenN (pt_buf p) + lenN h0 + lenN (snd it) - (lenN (pt_buf p) + lenN h0)) with (lenN (snd it)) by lia.
  rewrite (rt_store _ _ _ Hrt) by (try assumption; lia).
  rewrite <- app_assoc, overwrite_mid by assumption. eauto.
Qed.

Lemma put_items_ser c rep hdr items : forall p,
  cfg_rt c rep hdr -> rep_items rep items ->
  lenN (pt_buf p) + lenN (ser hdr items) <= pt_cap p ->
  exists l, put_items c p items = Ok (mkPut (pt_buf p ++ ser hdr items) (pt_cap p) l).
Proof.
  induction items as [|it items IH]; intros p Hrt Hr Hcap; cbn [put_items].
  - exists (pt_last p). cbn [ser map concat]. rewrite app_nil_r. destruct p; reflexivity.
  - inversion_clear Hr as [|? ? H1 H2]. change (ser hdr (it :: items)) with (ser1 hdr it ++ ser hdr items) in *.
    rewrite lenN_app in Hcap. destruct (put_item_ser c rep hdr p it Hrt H1) as (l & ->); [lia|]. cbn [bind].
    destruct (IH (mkPut (pt_buf p ++ ser1 hdr it) (pt_cap p) l) Hrt H2) as (l' & ->).
    + cbn [pt_buf pt_cap]. rewrite lenN_app. lia.
    + cbn [pt_buf pt_cap]. rewrite <- app_assoc. eauto.
Qed.

(* C04 *)
Lemma put_load_roundtrip c rep hdr items p :
  cfg_ok c -> cfg_rt c rep hdr -> rep_items rep items ->
  lenN (pt_buf p) + lenN (ser hdr items) <= pt_cap p ->
  exists p', put_items c p items = Ok p'
    /\ pt_buf p' = pt_buf p ++ ser hdr items
    /\ parse c (dropN (lenN (pt_buf p)) (pt_buf p')) (lenN (pt_buf p') - lenN (pt_buf p)) = Ok items.
Proof.
  intros Hok Hrt Hr Hcap. destruct (put_items_ser c rep hdr items p Hrt Hr Hcap) as (l & ->).
  eexists; split; [reflexivity|]. cbn [pt_buf]. split; [reflexivity|].
  rewrite dropN_app, lenN_app. replace (_ + _ - _) with (lenN (ser hdr items)) by lia.
  rewrite <- (app_nil_r (ser hdr items)) at 1. eapply parse_ser; eauto. apply Hok.
Qed.

(* C06 backward direction, for formats where the header can be reconstructed from what was loaded *)


Lemma t8l8v_inv : cfg_inv t8l8v rep_t8l8v hdr_t8l8v.
Proof.
  intros m left ti len h Hb Hl Hm H. cbn [cfg_load t8l8v t8l8v_load] in H.
  destruct m as [|a [|b m]]; try discriminate. inversion H; subst; clear H.
  inversion_clear Hb as [|? ? Ha Hb']. inversion_clear Hb' as [|? ? Hbb Hb]. unfold byte_ok in *.
  split; [exists a; auto|reflexivity].
Qed.
Lemma tliv_inv : cfg_inv tliv rep_tliv hdr_tliv.
Proof.
  intros m left ti len h Hb Hl Hm H. cbn [cfg_load tliv tliv_load] in H.
  destruct m as [|a [|b m]]; try discriminate. inversion_clear Hb as [|? ? Ha Hb']. inversion_clear Hb' as [|? ? Hbb Hb]. unfold byte_ok in *.
  unfold rep_tliv, hdr_tliv. cbn [tliv_load] in H. destruct (tliv_has_inst a) eqn:E.
  - destruct (left <? 3); [discriminate|]. destruct m as [|i m]; [discriminate|]. inversion_clear Hb as [|? ? Hi Hb']. inversion H; subst; clear H.
    cbn [ti_tag ti_ipres ti_inst]. split; [|reflexivity]. do 3 (split; [assumption|]). split; [apply (proj2 (has_inst_eq _ _)); symmetry; exact E|discriminate].
  - inversion H; subst; clear H. cbn [ti_tag ti_ipres ti_inst ti_of_tag]. split; [|reflexivity]. do 2 (split; [assumption|]). split; [lia|]. split; [apply (proj2 (has_inst_eq _ _)); symmetry; exact E|reflexivity].
Qed.
(* the only error when reading a header: it is cut off *)
Lemma tliv_short m left e : 2 <= left -> left <= lenN m -> (cfg_load tliv m left = Err e <-> e = ENOSPC /\ left = 2 /\ exists t r, m = t :: r /\ In t [5; 7; 9]).
Proof.
  intros H1 H2. destruct m as [|t [|l m]]; rewrite ?lenN_cons, ?lenN_nil in H2; try lia. cbn [cfg_load tliv tliv_load]. split.
  - destruct (tliv_has_inst t) eqn:E; [|discriminate]. destruct (left <? 3) eqn:E3; [|destruct m; discriminate]. intros H. injection H as <-. split; [reflexivity|]. split; [lia|].
    exists t, (l :: m). split; [reflexivity|]. apply has_inst_iff. exact E.
  - intros (-> & -> & t' & r & E & H). injection E as <- <-. apply has_inst_iff in H. rewrite H. reflexivity.
Qed.
Lemma t8l8v_total : load_tl_total t8l8v.
Proof. intros m left e. cbn [cfg_load t8l8v]. unfold t8l8v_load. destruct m as [|a [|b m]]; discriminate. Qed.
Lemma t16l16v_total : load_tl_total t16l16v.
Proof. intros m left e. cbn [cfg_load t16l16v]. unfold t16l16v_load. destruct m as [|a [|b [|x [|y m]]]]; discriminate. Qed.
Lemma t16l16v_inv : cfg_inv t16l16v rep_t16l16v hdr_t16l16v.
Proof.
  intros m left ti len h Hb Hl Hm H. cbn [cfg_load t16l16v t16l16v_load] in H.
  destruct m as [|a [|b [|x [|y m]]]]; try discriminate. inversion H; subst; clear H.
  inversion_clear Hb as [|? ? Ha Hb']. inversion_clear Hb' as [|? ? Hbb Hb]. inversion_clear Hb as [|? ? Hx Hb'].
  inversion_clear Hb' as [|? ? Hy Hb]. unfold byte_ok in *.
  split; [exists (a * 256 + b); repeat split; lia|]. unfold hdr_t16l16v; cbn [ti_tag ti_of_tag].
  change (takeN 4 (a :: b :: x :: y :: m)) with [a; b; x; y]. repeat f_equal; lia.
Qed.

Lemma load_all_inv c rep hdr : cfg_ok c -> cfg_inv c rep hdr -> forall fuel g items,
  linv g -> bytes_ok (ld_mem g) -> load_all fuel c g = Ok items ->
  rep_items rep items /\ takeN (ld_srclen g - ld_pos g) (dropN (ld_pos g) (ld_mem g)) = ser hdr items.
Proof.
  intros Hok Hinv. induction fuel as [|f IH]; intros g items Hi Hb H; [discriminate|].
  cbn [load_all] in H. destruct (load_next c g) as [g' rc] eqn:E.
  destruct (load_next_cases _ _ _ _ Hok Hi E) as (Hm & Hs & [(Hp & -> & Hv)|[(v & H1 & -> & Hv & H2 & H3 & H4)|(_ & e & ->)]]);
    [| |discriminate].
  - rewrite Hv in H. inversion H; subst; clear H. split; [constructor|].
    rewrite Hp, N.sub_diag. reflexivity.
  - rewrite Hv in H. destruct Hi as [Hi1 Hi2].
    assert (Hlen : ld_len g' <= lenN (dropN v (ld_mem g'))) by (rewrite lenN_dropN, Hm; lia).
    unfold rdN in H. destruct (ld_len g' <=? lenN (dropN v (ld_mem g'))) eqn:E2; [|lia].
    cbn [bind] in H. destruct (load_all f c g') as [r|e|u] eqn:E3; try discriminate. cbn [bind] in H.
    inversion H; subst; clear H.
    assert (Hi' : linv g') by (eapply load_next_inv; [eassumption| |eassumption]; split; assumption).
    assert (Hb' : bytes_ok (ld_mem g')) by (rewrite Hm; assumption).
    destruct (IH g' r Hi' Hb' E3) as [Hr Hser]. pose proof (ok_min c Hok) as Hmin.
    destruct (Hinv (dropN (ld_pos g) (ld_mem g)) (ld_srclen g - ld_pos g) (ld_ti g') (ld_len g') (v - ld_pos g))
      as [Hrep Hhdr]; [apply bytes_ok_dropN, Hb|rewrite lenN_dropN; lia|lia|exact H4|].
    assert (Hp' : ld_pos g' = v + ld_len g') by (unfold ld_pos; rewrite Hv; reflexivity).
    rewrite Hp', Hm, Hs in Hser. rewrite Hm in *.
    split.
    + constructor; [|exact Hr]. cbn [fst snd]. rewrite lenN_takeN by exact Hlen. exact Hrep.
    + change (ser hdr ((ld_ti g', takeN (ld_len g') (dropN v (ld_mem g))) :: r))
        with (ser1 hdr (ld_ti g', takeN (ld_len g') (dropN v (ld_mem g))) ++ ser hdr r).
      unfold ser1. cbn [fst snd]. rewrite lenN_takeN by exact Hlen. rewrite <- Hhdr, <- Hser.
      set (D := dropN (ld_pos g) (ld_mem g)).
      assert (D1 : dropN v (ld_mem g) = dropN (v - ld_pos g) D) by (unfold D; rewrite dropN_dropN; f_equal; lia).
      assert (D2 : dropN (v + ld_len g') (ld_mem g) = dropN (ld_len g') (dropN (v - ld_pos g) D))
        by (rewrite <- D1, dropN_dropN; reflexivity).
      rewrite D1, D2. assert (HD : lenN D = lenN (ld_mem g) - ld_pos g) by (unfold D; apply lenN_dropN).
      unfold takeN, dropN. rewrite <- app_assoc.
      replace (N.to_nat (ld_srclen g - ld_pos g)) with
        (N.to_nat (v - ld_pos g) + (N.to_nat (ld_len g') + N.to_nat (ld_srclen g - (v + ld_len g'))))%nat by lia.
      clear. generalize (N.to_nat (v - ld_pos g)) as x, (N.to_nat (ld_len g')) as y, (N.to_nat (ld_srclen g - (v + ld_len g'))) as z.
      intros x y z.
      assert (Hsplit : forall (l : list N) a b, firstn (a + b) l = firstn a l ++ firstn b (skipn a l)).
      { intros l a. revert l. induction a as [|a IHa]; intros l b; [reflexivity|].
        destruct l as [|q l]; [cbn; rewrite firstn_nil; reflexivity|]. cbn [plus firstn skipn app]. rewrite IHa. reflexivity. }
      rewrite Hsplit, Hsplit. reflexivity.
Qed.

Lemma parse_iff c rep hdr m items :
  cfg_ok c -> cfg_rt c rep hdr -> cfg_inv c rep hdr -> bytes_ok m ->
  (parse c m (lenN m) = Ok items <-> rep_items rep items /\ m = ser hdr items).
Proof.
  intros Hok Hrt Hinv Hb. split.
  - intros H. unfold parse in H. rewrite budget_all in H.
    destruct (load_all_inv c rep hdr Hok Hinv (S (length m)) (load_start m (lenN m)) items) as [Hr Hs].
    + unfold linv, ld_pos; cbn; lia.
    + exact Hb.
    + exact H.
    + split; [exact Hr|]. unfold ld_pos in Hs; cbn in Hs. rewrite N.sub_0_r, dropN_0, takeN_all in Hs by lia. exact Hs.
  - intros [Hr ->]. rewrite <- (app_nil_r (ser hdr items)) at 1. eapply parse_ser; eauto. apply Hok.
Qed.

(* ---------------------------------------------------------------- C05 on reachable states *)

Lemma load_next_reach c m g g' rc :
  cfg_ok c -> reach c m g -> load_next c g = (g', rc) ->
  (forall u, rc <> UB u) /\
  (rc = Ok tt ->
     match ld_val g' with
     | None => ld_pos g = lenN m
     | Some v => ld_pos g + cfg_min c <= v /\ v + ld_len g' <= lenN m
     end).
Proof.
  intros Hc Hr H. destruct (reach_linv _ _ _ Hc Hr) as ([Hi|Hi] & Hm & Hs); [|rewrite load_next_past in H by exact Hi; injection H as <- <-; split; congruence].
  destruct (load_next_cases _ _ _ _ Hc Hi H) as (Hm' & Hs' & [(Hp & -> & Hv)|[(v & H1 & -> & Hv & H2 & H3 & H4)|(_ & e & ->)]]).
  - split; [congruence|]. intros _. rewrite Hv. congruence.
  - split; [congruence|]. intros _. rewrite Hv. rewrite <- Hs. auto.
  - split; congruence.
Qed.

(* ---------------------------------------------------------------- C07 peek *)

Lemma peek_next c g :
  match load_next c g with
  | (g', Ok _) =>
    match ld_val g' with
    | Some _ => load_peek_tag c g = Ok (ld_ti g')
    | None => load_peek_tag c g = Err ENOENT
    end
  | (_, UB u) => load_peek_tag c g = UB u
  | (_, Err _) => load_peek_tag c g <> Err ENOENT
  end.
Proof.
  unfold load_next, load_peek_tag. destruct (next_tl_valid c g) as [[s l]|e|u] eqn:E.
  - destruct (l =? 0) eqn:E0; [reflexivity|].
    destruct (cfg_load c (dropN s (ld_mem g)) l) as [[[ti len] h]|e|u]; [|congruence|reflexivity].
    destruct (_ <? _); [congruence|reflexivity].
  - unfold next_tl_valid in E. destruct (_ <? _); [congruence|]. destruct (negb _ && _); congruence.
  - reflexivity.
Qed.

(* ---------------------------------------------------------------- C08 find by tag *)

(* fails without changing the loader *)
Lemma by_tag_unchanged c g ti g' rc :
  load_next_by_tag_inst c g ti = (g', rc) -> rc <> Ok tt -> g' = g.
Proof.
  unfold load_next_by_tag_inst. destruct (by_tag_loop _ c g ti); intros H Hn; inversion H; subst; congruence.
Qed.



Lemma by_tag_loop_first c ti fuel : forall g,
  match by_tag_loop fuel c g ti with
  | Ok g' => exists g1 v, skips c ti g g1 /\ load_next c g1 = (g', Ok tt) /\ ld_val g' = Some v /\ ti_match (ld_ti g') ti = true
  | Err ENOENT => exists g1 g2, skips c ti g g1 /\
      (load_next c g1 = (g2, Ok tt) /\ ld_val g2 = None \/ snd (load_next c g1) = Err ENOENT)
  | Err e => exists g1, skips c ti g g1 /\ snd (load_next c g1) = Err e
  | UB _ => True
  end.
Proof.
  induction fuel as [|f IH]; intros g; cbn [by_tag_loop]; [exact I|].
  destruct (load_next c g) as [g' [[]|e|u]] eqn:E; [| |exact I].
  - destruct (ld_val g') as [v|] eqn:Hv.
    + destruct (ti_match (ld_ti g') ti) eqn:Et.
      * exists g, v. split; [constructor|auto].
      * specialize (IH g'). destruct (by_tag_loop f c g' ti) as [g2|e|u]; [| |exact I].
        -- destruct IH as (g1 & v1 & Hs & H). exists g1, v1. split; [econstructor; eassumption|exact H].
        -- destruct e; destruct IH as (g1 & IH);
           try (destruct IH as (Hs & H); exists g1; split; [econstructor; eassumption|exact H]).
           destruct IH as (g2 & Hs & H). exists g1, g2. split; [econstructor; eassumption|exact H].
    + exists g, g'. split; [constructor|]. left. auto.
  - destruct e; try (exists g; split; [constructor|rewrite E; reflexivity]).
    exists g, g'. split; [constructor|]. right. rewrite E. reflexivity.
Qed.

(* in terms of the item list: the first match of the items still ahead *)
Fixpoint first_match (ti : tag_inst) (l : list item) : option (list item * item * list item) :=
  match l with
  | [] => None
  | it :: l' =>
    if ti_match (fst it) ti then Some ([], it, l')
    else match first_match ti l' with
         | Some (a, x, b) => Some (it :: a, x, b)
         | None => None
         end
  end.

Lemma first_match_spec ti l a x b :
  first_match ti l = Some (a, x, b) ->
  l = a ++ x :: b /\ ti_match (fst x) ti = true /\ Forall (fun it => ti_match (fst it) ti = false) a.
Proof.
  revert a x b. induction l as [|it l IH]; intros a x b H; cbn [first_match] in H; [discriminate|].
  destruct (ti_match (fst it) ti) eqn:E; [inversion H; subst; auto|].
  destruct (first_match ti l) as [[[a' x'] b']|] eqn:E2; [|discriminate]. inversion H; subst; clear H.
  destruct (IH _ _ _ eq_refl) as (-> & H1 & H2). repeat split; auto.
Qed.
Lemma first_match_none ti l : first_match ti l = None <-> Forall (fun it => ti_match (fst it) ti = false) l.
Proof.
  induction l as [|it l IH]; cbn [first_match]; [split; [constructor|reflexivity]|].
  destruct (ti_match (fst it) ti) eqn:E.
  - split; [discriminate|]. intros H. inversion H. congruence.
  - destruct (first_match ti l) as [[[a x] b]|] eqn:E2.
    + split; [discriminate|]. intros H. inversion H; subst. apply IH in H3. discriminate.
    + split; [|reflexivity]. intros _. constructor; [exact E|]. apply IH; reflexivity.
Qed.

Lemma by_tag_loop_ser c rep hdr ti items : forall fuel g pre rest,
  cfg_rt c rep hdr -> 1 <= cfg_min c -> rep_items rep items ->
  ld_mem g = pre ++ ser hdr items ++ rest ->
  ld_pos g = lenN pre -> ld_srclen g = lenN pre + lenN (ser hdr items) ->
  (length items < fuel)%nat ->
  by_tag_loop fuel c g ti =
  match first_match ti items with
  | None => Err ENOENT
  | Some (a, x, b) =>
      Ok (mkLoad (ld_mem g) (ld_srclen g) (fst x) (lenN (snd x))
                 (Some (lenN pre + lenN (ser hdr a) + lenN (hdr (fst x) (lenN (snd x))))))
  end.
Proof.
  induction items as [|it items IH]; intros fuel g pre rest Hrt Hmin Hrep Hmem Hpos Hsrc Hf;
    (destruct fuel as [|f]; [lia|]); cbn [by_tag_loop first_match].
  - cbn [ser map concat] in *. rewrite lenN_nil in Hsrc. rewrite load_next_end by lia. reflexivity.
  - inversion_clear Hrep as [|? ? Hr Hrest]. change (ser hdr (it :: items)) with (ser1 hdr it ++ ser hdr items) in *.
    erewrite load_next_ser by eauto. cbn [ld_val ld_len ld_mem ld_ti ld_srclen].
    destruct (ti_match (fst it) ti) eqn:Et.
    + cbn [ser map concat]. rewrite lenN_nil, N.add_0_r. reflexivity.
    + erewrite IH with (pre := pre ++ ser1 hdr it); eauto; cbn [ld_mem ld_srclen ld_val ld_len].
      * destruct (first_match ti items) as [[[a x] b]|]; [|reflexivity].
        change (ser hdr (it :: a)) with (ser1 hdr it ++ ser hdr a). rewrite !lenN_app, !N.add_assoc. reflexivity.
      * rewrite Hmem, <- !app_assoc. reflexivity.
      * unfold ld_pos; cbn. unfold ser1. rewrite !lenN_app. lia.
      * rewrite Hsrc, !lenN_app. lia.
      * cbn [length] in Hf. lia.
Qed.

(* C08 on a parsed buffer *)
Lemma by_tag_items c rep hdr ti g pre items rest :
  cfg_rt c rep hdr -> 1 <= cfg_min c -> rep_items rep items ->
  ld_mem g = pre ++ ser hdr items ++ rest ->
  ld_pos g = lenN pre -> ld_srclen g = lenN pre + lenN (ser hdr items) ->
  (Forall (fun it => ti_match (fst it) ti = false) items -> load_next_by_tag_inst c g ti = (g, Err ENOENT))
  /\ (forall a x b, items = a ++ x :: b -> Forall (fun it => ti_match (fst it) ti = false) a ->
        ti_match (fst x) ti = true ->
        exists g', load_next_by_tag_inst c g ti = (g', Ok tt)
          /\ ld_mem g' = ld_mem g /\ ld_srclen g' = ld_srclen g
          /\ ld_ti g' = fst x /\ ld_len g' = lenN (snd x)
          /\ ld_val g' = Some (lenN pre + lenN (ser hdr a) + lenN (hdr (fst x) (lenN (snd x))))).
Proof.
  intros Hrt Hmin Hr Hmem Hpos Hsrc.
  assert (Hl := by_tag_loop_ser c rep hdr ti items (budget (ld_mem g) (ld_srclen g)) g pre rest Hrt Hmin Hr Hmem Hpos Hsrc).
  assert (Hlen : (length items < budget (ld_mem g) (ld_srclen g))%nat).
  { pose proof (ser_length_ge _ _ _ _ Hrt Hmin Hr). unfold budget. rewrite Hsrc, Hmem, !lenN_app. unfold lenN. lia. }
  specialize (Hl Hlen). unfold load_next_by_tag_inst. rewrite Hl. split.
  - intros Hn. apply first_match_none in Hn. rewrite Hn. reflexivity.
  - intros a x b -> Ha Hx.
    assert (Hfm : first_match ti (a ++ x :: b) = Some (a, x, b)).
    { clear -Ha Hx. induction Ha as [|it a Hit Ha IH]; cbn [app first_match]; [rewrite Hx; reflexivity|].
      rewrite Hit, IH. reflexivity. }
    rewrite Hfm. eexists; repeat split; reflexivity.
Qed.
