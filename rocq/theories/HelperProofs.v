(* HelperProofs.v -- bit fields, address helpers, F-SEID comparison, Node ID conversion *)
From Verif Require Import Base BaseProofs GtlvModel DecEncModel IesModel IesSpec IesProofs.

(* ---------------------------------------------------------------- bits *)
Lemma land_pow2 b k : negb (N.land b (2 ^ k) =? 0) = N.testbit b k.
Proof.
  assert (E : N.land b (2 ^ k) = if N.testbit b k then 2 ^ k else 0).
  { apply N.bits_inj. intros i. rewrite N.land_spec, N.pow2_bits_eqb. destruct (N.eqb_spec k i) as [->|Hi].
    - rewrite andb_true_r. destruct (N.testbit b i); [rewrite N.pow2_bits_true|rewrite N.bits_0]; reflexivity.
    - rewrite andb_false_r. destruct (N.testbit b k); [rewrite N.pow2_bits_false by exact Hi|rewrite N.bits_0]; reflexivity. }
  rewrite E. destruct (N.testbit b k); [|reflexivity]. destruct (N.eqb_spec (2 ^ k) 0) as [Z|Z]; [|reflexivity].
  exfalso. revert Z. apply N.pow_nonzero. discriminate.
Qed.
Lemma upd_nth l i f j : nth_error (upd l i f) j = if Nat.eqb i j then option_map f (nth_error l j) else nth_error l j.
Proof.
  revert i j. induction l as [|b l IH]; intros i j; cbn [upd].
  - destruct j; cbn; destruct (Nat.eqb _ _); reflexivity.
  - destruct i as [|i], j as [|j]; cbn [nth_error upd Nat.eqb]; try reflexivity. apply IH.
Qed.
Lemma upd_length l i f : length (upd l i f) = length l.
Proof. revert i. induction l as [|b l IH]; intros [|i]; cbn; auto. Qed.

(* within the array, exactly the addressed bit changes, and the array keeps its size *)
Lemma bits_set_get bits pos v : pos < 8 * lenN bits ->
  exists bits', bits_set bits pos v = Ok bits' /\ length bits' = length bits /\ bits_get bits' pos = Ok v
    /\ forall pos', pos' <> pos -> bits_get bits' pos' = bits_get bits pos'.
Proof.
  intros H. unfold bits_set. set (i := N.to_nat (pos / 8)).
  assert (Hi : (i < length bits)%nat) by (subst i; unfold lenN in H; lia).
  destruct (nth_error bits i) as [b|] eqn:Eb; [|apply nth_error_None in Eb; lia].
  eexists. split; [reflexivity|]. split; [apply upd_length|]. split.
  - unfold bits_get. fold i. rewrite upd_nth, Nat.eqb_refl, Eb. cbn [option_map]. f_equal. rewrite land_pow2.
    destruct v; [rewrite N.lor_spec, N.pow2_bits_true, orb_true_r|rewrite N.ldiff_spec, N.pow2_bits_true, andb_false_r]; reflexivity.
  - intros pos' Hp. unfold bits_get. rewrite upd_nth. destruct (Nat.eqb_spec i (N.to_nat (pos' / 8))) as [E|E]; [|reflexivity].
    rewrite <- E, Eb. cbn [option_map]. f_equal. rewrite !land_pow2.
    assert (Hm : pos mod 8 <> pos' mod 8).
    { intros Em. apply Hp. subst i. apply N2Nat.inj in E. rewrite (N.div_mod' pos 8), (N.div_mod' pos' 8). congruence. }
    destruct v; [rewrite N.lor_spec, N.pow2_bits_false, orb_false_r by exact Hm|rewrite N.ldiff_spec, N.pow2_bits_false, andb_true_r by exact Hm]; reflexivity.
Qed.
Lemma bits_oob bits pos v : 8 * lenN bits <= pos -> bits_get bits pos = UB OobRead /\ bits_set bits pos v = UB OobWrite.
Proof.
  intros H. unfold bits_get, bits_set. assert (E : nth_error bits (N.to_nat (pos / 8)) = None).
  { apply nth_error_None. unfold lenN in H. lia. }
  rewrite E. auto.
Qed.
Lemma upd_bytes l i f : bytes_ok l -> (forall b, byte_ok b -> byte_ok (f b)) -> bytes_ok (upd l i f).
Proof. intros H Hf. revert i. induction H as [|b l Hb H IH]; intros [|i]; cbn [upd]; constructor; auto. apply IH. Qed.
Lemma byte_bits b : byte_ok b <-> forall i, 8 <= i -> N.testbit b i = false.
Proof.
  unfold byte_ok. split.
  - intros H i Hi. destruct (N.eq_dec b 0) as [->|Hb]; [apply N.bits_0|]. apply N.bits_above_log2.
    assert (N.log2 b < 8) by (apply N.log2_lt_pow2; [lia|exact H]). lia.
  - intros H. destruct (N.eq_dec b 0) as [->|Hb]; [lia|]. change 256 with (2 ^ 8). apply N.log2_lt_pow2; [lia|].
    destruct (N.lt_ge_cases (N.log2 b) 8) as [L|L]; [exact L|]. pose proof (N.bit_log2 b Hb) as B. rewrite (H _ L) in B. discriminate.
Qed.
Lemma bits_set_bytes bits pos v bits' : bytes_ok bits -> bits_set bits pos v = Ok bits' -> bytes_ok bits'.
Proof.
  intros H. unfold bits_set. destruct (nth_error _ _); [|discriminate]. intros E. injection E as <-. apply upd_bytes; [exact H|].
  intros b Hb. rewrite byte_bits in *. intros i Hi. assert (pos mod 8 <> i) by lia.
  destruct v; [rewrite N.lor_spec|rewrite N.ldiff_spec]; rewrite Hb by exact Hi; [rewrite N.pow2_bits_false by assumption|]; reflexivity.
Qed.

(* bit [pos]: bit pos mod 8 (0 = least significant) of octet pos / 8 *)
Lemma bits_get_bit bits pos : pos < 8 * lenN bits -> bits_get bits pos = Ok (N.testbit (nth (N.to_nat (pos / 8)) bits 0) (pos mod 8)).
Proof.
  intros H. unfold bits_get. destruct (nth_error bits (N.to_nat (pos / 8))) as [b|] eqn:E.
  - rewrite land_pow2, (nth_error_nth _ _ _ E). reflexivity.
  - apply nth_error_None in E. unfold lenN in H. lia.
Qed.
(* decoded feature bits keep their position; bits that are not on the wire are 0 *)
Lemma rdN_bits n v rest b i : n <= lenN v -> rdN n (v ++ rest) = Ok b -> (i < N.to_nat n)%nat -> nth i b 0 = nth i v 0.
Proof.
  intros Hn E Hi. rewrite rdN_app_le in E by exact Hn. injection E as <-. unfold takeN. rewrite <- (firstn_skipn (N.to_nat n) v) at 2.
  rewrite app_nth1; [reflexivity|]. rewrite firstn_length. unfold lenN in Hn. lia.
Qed.
Lemma zeros_nth n i : nth i (zeros n) 0 = 0.
Proof. revert i. induction n; intros [|i]; cbn; auto. Qed.
Lemma padded_bits size v rest bits pos : dec_bits_padded size (v ++ rest) (lenN v) = Ok (IvBits bits) -> pos < 8 * size ->
  lenN bits = size /\ bits_get bits pos = Ok (N.testbit (nth (N.to_nat (pos / 8)) v 0) (pos mod 8)).
Proof.
  unfold dec_bits_padded. intros H Hp. destruct (rdN (N.min size (lenN v)) (v ++ rest)) as [b| |] eqn:E; try discriminate.
  cbn [bind] in H. injection H as <-. pose proof E as E0. rewrite rdN_app_le in E0 by lia. injection E0 as Eb.
  assert (Lb : lenN b = N.min size (lenN v)).
  { subst b. unfold lenN, takeN. rewrite firstn_length. unfold lenN. lia. }
  assert (Ls : lenN (b ++ zeros (N.to_nat (size - N.min size (lenN v)))) = size) by (unfold lenN in *; rewrite app_length, zeros_length; lia).
  split; [exact Ls|]. rewrite bits_get_bit by (rewrite Ls; exact Hp). do 2 f_equal.
  destruct (Nat.lt_ge_cases (N.to_nat (pos / 8)) (length b)) as [L|L].
  - rewrite app_nth1 by exact L. apply (fun h => rdN_bits _ _ _ _ _ h E); [lia|]. unfold lenN in *. lia.
  - rewrite app_nth2 by exact L. rewrite zeros_nth. symmetry. apply nth_overflow. unfold lenN in *. lia.
Qed.
Lemma feature_bits k v rest bits pos : dec_of k (v ++ rest) (lenN v) = Ok (IvBits bits) -> pos < 8 * feature_octets k ->
  lenN bits = feature_octets k /\ bits_get bits pos = Ok (N.testbit (nth (N.to_nat (pos / 8)) v 0) (pos mod 8)).
Proof.
  intros H Hp. destruct k; cbn [feature_octets] in Hp; try lia; cbn [dec_of feature_octets] in *.
  - apply (padded_bits 6 v rest); assumption.
  - apply (padded_bits 1 v rest); [|exact Hp]. unfold dec_cp_ff in H. unfold dec_bits_padded. destruct (N.ltb_spec (lenN v) 1); [discriminate|].
    replace (N.min 1 (lenN v)) with 1 by lia. destruct (rdN 1 (v ++ rest)) as [b| |]; try discriminate. cbn [bind] in *. injection H as ->.
    cbn [N.sub N.to_nat zeros]. rewrite app_nil_r. reflexivity.
  - unfold dec_apply_action in H. destruct (lenN v <? 1); [discriminate|]. apply (padded_bits 2 v rest); assumption.
Qed.

(* ---------------------------------------------------------------- IP address sets *)
Lemma ip_addrs_set_get dst addr :
  match addr with
  | Sa4 a p => exists d, ip_addrs_set dst addr = (d, Ok tt) /\ ip_addrs_get d = (Sa4 a 0, snd (ip_addrs_get dst)) /\ ia_v4p d = true /\ ia_v6p d = ia_v6p dst /\ ia_v6 d = ia_v6 dst
  | Sa6 a p => exists d, ip_addrs_set dst addr = (d, Ok tt) /\ ip_addrs_get d = (fst (ip_addrs_get dst), Sa6 a 0) /\ ia_v6p d = true /\ ia_v4p d = ia_v4p dst /\ ia_v4 d = ia_v4 dst
  | SaUnspec => ip_addrs_set dst addr = (dst, Err ENOTSUP)
  end.
Proof. destruct addr; cbn; [reflexivity| |]; eexists; repeat split; reflexivity. Qed.
Lemma get_str_spec src : fst (ip_addrs_get_str src) = Some (fst (ip_addrs_get src))
  /\ snd (ip_addrs_get_str src) = (if ia_v4p src then None else Some (snd (ip_addrs_get src))).
Proof. unfold ip_addrs_get_str, ip_addrs_get. destruct (ia_v4p src), (ia_v6p src); split; reflexivity. Qed.
Lemma get_str_v6 src : fst (ip_addrs_get src) = SaUnspec -> valid_addrs src -> snd (ip_addrs_get_str src) = Some (snd (ip_addrs_get src)).
Proof.
  intros H V. rewrite (proj2 (get_str_spec src)). unfold ip_addrs_get in H. cbn [fst] in H. destruct V as [V _]. destruct (ia_v4p src); [|reflexivity].
  destruct V as (a & E & _). rewrite E in H. discriminate H.
Qed.
Lemma get_str_v6_missing : exists src a, ip_addrs_get src = (Sa4 [10;0;0;1] 0, Sa6 a 0) /\ valid_addrs src /\ snd (ip_addrs_get_str src) = None.
Proof.
  exists (mkAddrs true (Sa4 [10;0;0;1] 0) true (Sa6 (be_put 16 1) 0)), (be_put 16 1). split; [reflexivity|]. split; [|reflexivity].
  split; cbn [ia_v4p ia_v4 ia_v6p ia_v6]; eexists; (split; [reflexivity|]); split; try reflexivity; [repeat constructor|apply be_put_ok].
Qed.

(* ---------------------------------------------------------------- F-SEID comparison *)
Lemma memcmp_0 a b : length a = length b -> (memcmp a b = 0%Z <-> a = b).
Proof.
  revert b. induction a as [|x a IH]; intros [|y b] L; try discriminate L; [split; reflexivity|]. cbn [memcmp].
  destruct (N.ltb_spec x y); [split; [discriminate|intros E; injection E as <- _; lia]|].
  destruct (N.ltb_spec y x); [split; [discriminate|intros E; injection E as <- _; lia]|].
  assert (x = y) by lia. subst y. rewrite IH by (injection L; auto). split; [intros ->; reflexivity|intros E; injection E; auto].
Qed.
Lemma memcmp_anti a b : memcmp b a = (- memcmp a b)%Z.
Proof.
  revert b. induction a as [|x a IH]; intros [|y b]; try reflexivity. cbn [memcmp].
  destruct (N.ltb_spec x y), (N.ltb_spec y x); try lia; apply IH.
Qed.
Lemma osmo_cmp_anti a b : osmo_cmp b a = (- osmo_cmp a b)%Z.
Proof. unfold osmo_cmp. destruct (N.ltb_spec a b), (N.ltb_spec b a); try lia. Qed.
Lemma sa_cmp_anti a b : sa_cmp b a = (- sa_cmp a b)%Z.
Proof.
  unfold sa_cmp. rewrite (N.eqb_sym (sa_family b)). destruct (_ =? _); cbn [negb]; [apply memcmp_anti|apply osmo_cmp_anti].
Qed.
Lemma sa_cmp_4 a b : addr4 a -> addr4 b -> (sa_cmp (Sa4 a 0) (Sa4 b 0) = 0%Z <-> a = b).
Proof.
  intros [La _] [Lb _]. unfold sa_cmp. cbn [sa_family sa_bytes negb]. change (2 =? 2) with true. cbn [negb].
  rewrite memcmp_0 by (rewrite !app_length; congruence). split; [apply app_inv_head|intros ->; reflexivity].
Qed.
Lemma sa_cmp_6 a b : addr6 a -> addr6 b -> (sa_cmp (Sa6 a 0) (Sa6 b 0) = 0%Z <-> a = b).
Proof.
  intros [La _] [Lb _]. unfold sa_cmp. cbn [sa_family sa_bytes negb]. change (10 =? 10) with true. cbn [negb].
  rewrite memcmp_0 by (rewrite !app_length; congruence). split; [apply app_inv_head|intros ->; reflexivity].
Qed.

Definition common4 (a b : f_seid) : bool := ia_v4p (fs_addr a) && ia_v4p (fs_addr b).
Definition common6 (a b : f_seid) : bool := ia_v6p (fs_addr a) && ia_v6p (fs_addr b).
Lemma seid_cmp_anti (a b : N) : (if b <? a then (-1)%Z else if a <? b then 1%Z else 0%Z) = (- (if (a <? b)%N then -1 else if (b <? a)%N then 1 else 0))%Z.
Proof. destruct (N.ltb_spec a b), (N.ltb_spec b a); try lia. Qed.

Lemma f_seid_cmp_anti a b : common4 a b || common6 a b = true -> f_seid_cmp b a = (- f_seid_cmp a b)%Z.
Proof.
  unfold common4, common6, f_seid_cmp. rewrite (andb_comm (ia_v4p (fs_addr b))), (andb_comm (ia_v6p (fs_addr b))).
  destruct (ia_v4p (fs_addr a) && ia_v4p (fs_addr b)) eqn:E4; cbn [orb].
  - intros _. rewrite (sa_cmp_anti (ia_v4 (fs_addr a))). set (z := sa_cmp _ _). destruct (Z.eqb_spec z 0) as [->|Hz]; cbn [negb].
    + change (-0 =? 0)%Z with true. cbn [negb]. apply seid_cmp_anti.
    + destruct (Z.eqb_spec (- z) 0); [lia|reflexivity].
  - intros ->. rewrite (sa_cmp_anti (ia_v6 (fs_addr a))). set (z := sa_cmp _ _). destruct (Z.eqb_spec z 0) as [->|Hz]; cbn [negb].
    + change (-0 =? 0)%Z with true. cbn [negb]. apply seid_cmp_anti.
    + destruct (Z.eqb_spec (- z) 0); [lia|reflexivity].
Qed.
Lemma seid_cmp_0 (a b : N) : (if a <? b then (-1)%Z else if b <? a then 1%Z else 0%Z) = 0%Z <-> a = b.
Proof. destruct (N.ltb_spec a b), (N.ltb_spec b a); split; intros; try discriminate; lia. Qed.
Lemma f_seid_cmp_0 a b : valid_addrs (fs_addr a) -> valid_addrs (fs_addr b) -> common4 a b || common6 a b = true ->
  (f_seid_cmp a b = 0%Z <->
   fs_seid a = fs_seid b /\ if common4 a b then ia_v4 (fs_addr a) = ia_v4 (fs_addr b) else ia_v6 (fs_addr a) = ia_v6 (fs_addr b)).
Proof.
  unfold common4, common6, f_seid_cmp. intros [A4 A6] [B4 B6].
  destruct (ia_v4p (fs_addr a) && ia_v4p (fs_addr b)) eqn:E4; cbn [orb].
  - intros _. apply andb_prop in E4. destruct E4 as [Ea Eb]. rewrite Ea in A4. rewrite Eb in B4.
    destruct A4 as (x & -> & Hx), B4 as (y & -> & Hy). destruct (Z.eqb_spec (sa_cmp (Sa4 x 0) (Sa4 y 0)) 0) as [E|E]; cbn [negb].
    + rewrite seid_cmp_0. apply sa_cmp_4 in E; [|assumption|assumption]. subst y. tauto.
    + split; [contradiction|]. intros [_ Es]. injection Es as <-. exfalso. apply E, sa_cmp_4; auto.
  - intros E6. rewrite E6. apply andb_prop in E6. destruct E6 as [Ea Eb]. rewrite Ea in A6. rewrite Eb in B6.
    destruct A6 as (x & -> & Hx), B6 as (y & -> & Hy). destruct (Z.eqb_spec (sa_cmp (Sa6 x 0) (Sa6 y 0)) 0) as [E|E]; cbn [negb].
    + rewrite seid_cmp_0. apply sa_cmp_6 in E; [|assumption|assumption]. subst y. tauto.
    + split; [contradiction|]. intros [_ Es]. injection Es as <-. exfalso. apply E, sa_cmp_6; auto.
Qed.
Lemma memcmp_lt a b : length a = length b -> ((memcmp a b < 0)%Z <-> octets_lt a b).
Proof.
  revert b. induction a as [|x a IH]; intros [|y b] L; try discriminate L; [cbn; lia|]. cbn [memcmp octets_lt].
  destruct (N.ltb_spec x y); [split; auto; lia|].
  destruct (N.ltb_spec y x); [split; [lia|intros [E|[E _]]; lia]|].
  assert (x = y) by lia. subst y. rewrite IH by (injection L; auto). split; [auto|]. intros [E|[_ E]]; [lia|exact E].
Qed.
Lemma octets_lt_cons x a b : octets_lt (x :: a) (x :: b) <-> octets_lt a b.
Proof. cbn. split; [intros [E|[_ E]]; [lia|exact E]|auto]. Qed.
Lemma octets_lt_app p a b : octets_lt (p ++ a) (p ++ b) <-> octets_lt a b.
Proof. induction p as [|x p IH]; [reflexivity|]. cbn [app]. rewrite octets_lt_cons. exact IH. Qed.
Lemma octets_lt_trans a b d : octets_lt a b -> octets_lt b d -> octets_lt a d.
Proof.
  revert b d. induction a as [|x a IH]; intros [|y b] [|z d]; cbn; try tauto.
  intros [A|[-> A]] [B|[-> B]]; try (left; lia). right. split; [reflexivity|]. eapply IH; eassumption.
Qed.
Lemma sa_cmp_lt a b : sa_family a = sa_family b -> length (sa_octets a) = length (sa_octets b) ->
  match a, b with Sa4 _ p, Sa4 _ q => p = q | Sa6 _ p, Sa6 _ q => p = q | _, _ => True end ->
  ((sa_cmp a b < 0)%Z <-> octets_lt (sa_octets a) (sa_octets b)).
Proof.
  intros Hf Hl Hp. unfold sa_cmp. rewrite <- Hf, N.eqb_refl. cbn [negb].
  destruct a, b; try discriminate Hf; cbn [sa_bytes sa_octets] in *; subst; [cbn; lia| |];
    (rewrite memcmp_lt by (rewrite !app_length; congruence)); apply octets_lt_app.
Qed.
Lemma f_seid_cmp_lt a b : valid_addrs (fs_addr a) -> valid_addrs (fs_addr b) ->
  match shared a b with
  | Some (x, y) => (f_seid_cmp a b < 0)%Z <-> octets_lt x y \/ (x = y /\ fs_seid a < fs_seid b)
  | None => True
  end.
Proof.
  intros [A4 A6] [B4 B6]. unfold shared, common4, common6, f_seid_cmp.
  destruct (ia_v4p (fs_addr a) && ia_v4p (fs_addr b)) eqn:E4.
  - apply andb_prop in E4. destruct E4 as [Ea Eb]. rewrite Ea in A4. rewrite Eb in B4.
    destruct A4 as (x & -> & Hx), B4 as (y & -> & Hy). cbn [sa_octets].
    pose proof (sa_cmp_lt (Sa4 x 0) (Sa4 y 0) eq_refl ltac:(cbn [sa_octets]; destruct Hx, Hy; congruence) eq_refl) as Hlt. cbn [sa_octets] in Hlt.
    pose proof (sa_cmp_4 x y Hx Hy) as H0.
    destruct (Z.eqb_spec (sa_cmp (Sa4 x 0) (Sa4 y 0)) 0) as [E|E]; cbn [negb].
    + pose proof (proj1 H0 E) as Exy. rewrite E in Hlt. destruct (N.ltb_spec (fs_seid a) (fs_seid b)), (N.ltb_spec (fs_seid b) (fs_seid a)); split; intros; try lia; auto;
        intuition lia.
    + rewrite Hlt. split; [auto|]. intros [L|[L _]]; [exact L|]. exfalso. apply E, H0, L.
  - destruct (ia_v6p (fs_addr a) && ia_v6p (fs_addr b)) eqn:E6; [|exact I].
    apply andb_prop in E6. destruct E6 as [Ea Eb]. rewrite Ea in A6. rewrite Eb in B6.
    destruct A6 as (x & -> & Hx), B6 as (y & -> & Hy). cbn [sa_octets].
    pose proof (sa_cmp_lt (Sa6 x 0) (Sa6 y 0) eq_refl ltac:(cbn [sa_octets]; destruct Hx, Hy; congruence) eq_refl) as Hlt. cbn [sa_octets] in Hlt.
    pose proof (sa_cmp_6 x y Hx Hy) as H0.
    destruct (Z.eqb_spec (sa_cmp (Sa6 x 0) (Sa6 y 0)) 0) as [E|E]; cbn [negb].
    + pose proof (proj1 H0 E) as Exy. rewrite E in Hlt. destruct (N.ltb_spec (fs_seid a) (fs_seid b)), (N.ltb_spec (fs_seid b) (fs_seid a)); split; intros; try lia; auto;
        intuition lia.
    + rewrite Hlt. split; [auto|]. intros [L|[L _]]; [exact L|]. exfalso. apply E, H0, L.
Qed.
(* among F-SEIDs that all have an IPv4 address (or: all an IPv6 and none an IPv4 address) the comparison is transitive *)
Lemma f_seid_cmp_lt_trans a b d : valid_addrs (fs_addr a) -> valid_addrs (fs_addr b) -> valid_addrs (fs_addr d) ->
  (common4 a b = true /\ ia_v4p (fs_addr d) = true) \/ (common6 a b = true /\ ia_v6p (fs_addr d) = true /\ ia_v4p (fs_addr a) = false /\ ia_v4p (fs_addr b) = false /\ ia_v4p (fs_addr d) = false) ->
  (f_seid_cmp a b < 0 -> f_seid_cmp b d < 0 -> f_seid_cmp a d < 0)%Z.
Proof.
  intros Ha Hb Hd Hc. pose proof (f_seid_cmp_lt a b Ha Hb) as H1. pose proof (f_seid_cmp_lt b d Hb Hd) as H2. pose proof (f_seid_cmp_lt a d Ha Hd) as H3.
  unfold shared, common4, common6 in *.
  assert (T : forall x y z (s1 s2 s3 : N), octets_lt x y \/ (x = y /\ s1 < s2) -> octets_lt y z \/ (y = z /\ s2 < s3) -> octets_lt x z \/ (x = z /\ s1 < s3)).
  { intros x y z s1 s2 s3 [A|[-> A]] [B|[-> B]]; [left; eapply octets_lt_trans; eassumption|left; exact A|left; exact B|right; split; [reflexivity|lia]]. }
  destruct Hc as [[Hab Hd4]|(Hab & Hd6 & Ha4 & Hb4 & Hd4)]; apply andb_prop in Hab; destruct Hab as [Ea Eb].
  - rewrite Ea, Eb, Hd4 in *. cbn [andb] in *. rewrite H1, H2, H3. apply T.
  - rewrite Ea, Eb, Hd6, Ha4, Hb4, Hd4 in *. cbn [andb] in *. rewrite H1, H2, H3. apply T.
Qed.
Lemma f_seid_cmp_ptr_spec p x b :
  f_seid_cmp_ptr None None = 0%Z /\ f_seid_cmp_ptr None (Some (p, x)) = (-1)%Z /\ f_seid_cmp_ptr (Some (p, x)) None = 1%Z
  /\ f_seid_cmp_ptr (Some (p, x)) (Some (p, x)) = 0%Z
  /\ (forall q, q <> p -> f_seid_cmp_ptr (Some (p, x)) (Some (q, b)) = f_seid_cmp x b).
Proof.
  repeat split; cbn [f_seid_cmp_ptr]; [rewrite N.eqb_refl; reflexivity|]. intros q Hq. destruct (N.eqb_spec p q); [congruence|reflexivity].
Qed.
Lemma f_seid_set_spec seid addr :
  fs_seid (f_seid_set seid addr) = seid /\
  ip_addrs_get (fs_addr (f_seid_set seid addr)) =
    match addr with Sa4 a _ => (Sa4 a 0, SaUnspec) | Sa6 a _ => (SaUnspec, Sa6 a 0) | SaUnspec => (SaUnspec, SaUnspec) end.
Proof. destruct addr; split; reflexivity. Qed.
Lemma f_seid_cmp_no_addr seid : f_seid_cmp (mkFseid seid no_addrs) (mkFseid seid no_addrs) = 1%Z.
Proof. reflexivity. Qed.
Lemma f_seid_cmp_one_ip : exists a b, valid_addrs (fs_addr a) /\ valid_addrs (fs_addr b) /\ fs_seid a = fs_seid b
  /\ common4 a b = true /\ common6 a b = true /\ ia_v6 (fs_addr a) = ia_v6 (fs_addr b) /\ f_seid_cmp a b <> 0%Z.
Proof.
  exists (mkFseid 1 (mkAddrs true (Sa4 [10;0;0;1] 0) true (Sa6 (be_put 16 1) 0))), (mkFseid 1 (mkAddrs true (Sa4 [10;0;0;2] 0) true (Sa6 (be_put 16 1) 0))).
  assert (V : forall q, q < 256 -> valid_addrs (mkAddrs true (Sa4 [10;0;0;q] 0) true (Sa6 (be_put 16 1) 0))).
  { intros q Hq. split; cbn [ia_v4p ia_v4 ia_v6p ia_v6]; eexists; (split; [reflexivity|]); split; try reflexivity; [repeat constructor; exact Hq|apply be_put_ok]. }
  split; [apply V; lia|]. split; [apply V; lia|]. repeat split. discriminate.
Qed.

(* ---------------------------------------------------------------- Node ID *)
Lemma node_id_rt os os0 : sa_family os = sa_family os0 -> os <> SaUnspec ->
  exists n, node_id_from_sa os = Ok n /\ node_id_to_sa n os0 = Ok os.
Proof.
  intros H Hn. destruct os as [|a p|a p]; [congruence| |]; destruct os0; try discriminate H; eexists; split; reflexivity.
Qed.
Lemma node_id_rt_fails a p : exists n, node_id_from_sa (Sa4 a p) = Ok n /\ node_id_to_sa n SaUnspec = Err EINVAL.
Proof. eexists. split; reflexivity. Qed.
Lemma node_id_errors : node_id_from_sa SaUnspec = Err ENOTSUP
  /\ (forall s os, node_id_to_sa (NodeFqdn s) os = Err ENOTSUP) /\ (forall t os, node_id_to_sa (NodeOther t) os = Err ENOTSUP).
Proof. repeat split. Qed.

(* ---------------------------------------------------------------- Outer Header Creation *)
Lemma enc_ohc_consistent room x bs : lenN (oh_desc x) = 2 -> enc_of KOhc room (IvOhc x) = (bs, None) -> ohc_consistent x.
Proof.
  intros L. cbn [enc_of enc_ohc]. unfold oh_bits. rewrite !bits_get_bit by (rewrite L; vm_compute; reflexivity). cbn [bind].
  set (d := nth (N.to_nat (0 / 8)) (oh_desc x) 0).
  change (nth (N.to_nat (1 / 8)) (oh_desc x) 0) with d. change (nth (N.to_nat (2 / 8)) (oh_desc x) 0) with d.
  change (nth (N.to_nat (3 / 8)) (oh_desc x) 0) with d. change (nth (N.to_nat (4 / 8)) (oh_desc x) 0) with d.
  change (nth (N.to_nat (5 / 8)) (oh_desc x) 0) with d. change (nth (N.to_nat (6 / 8)) (oh_desc x) 0) with d.
  change (nth (N.to_nat (7 / 8)) (oh_desc x) 0) with d.
  unfold ohc_consistent. change (nth 0 (oh_desc x) 0) with d. cbv zeta.
  change (0 mod 8) with 0. change (1 mod 8) with 1. change (2 mod 8) with 2. change (3 mod 8) with 3.
  change (4 mod 8) with 4. change (5 mod 8) with 5. change (6 mod 8) with 6. change (7 mod 8) with 7.
  repeat (match goal with |- context [eqb ?p ?q] => destruct (eqb_spec p q) as [->|]; cbn [negb]; [|discriminate] end).
  intros _. repeat split.
Qed.
