(* IeMemDec.v -- each decoder of pfcp_ies_custom.c, on a zeroed struct of any ABI, stores the value that its model in IesModel.v returns *)
From Coq Require Import String Ascii.
From Verif Require Import Base BaseProofs GtlvModel DecEncModel DecEncProofs CStr IesModel IesSpec IesProofs TablesModel StrModel MemModel MemSpec MemProofs MemTest GenModel GenProofs GenPfcp PfcpMem PfcpMemProofs IeMemModel IeMemSpec IeMemProofs IeMemStr.
Local Open Scope string_scope.
Local Open Scope N_scope.
Local Open Scope list_scope.

Section Sim.
Variable te : tenv.
Variable be : bool.
Variable sa_img : sa -> list N.
Variable sa_rd : list N -> sa.
Hypothesis HL : Forall (laid_out te) custom_h.
Hypothesis HB : base_sizes te.
Hypothesis HS : sockaddr_ok te sa_img sa_rd.
Notation SA := (sz te SOCKADDR).
Notation vb := v_bool.
Notation vn := (v_num te be).
Notation vs := (v_sa te sa_rd).

Definition frame (S a n : N) (mem mem' : list N) : Prop := forall o k, o + k <= a \/ a + n <= o -> o + k <= S -> get_at o k mem' = get_at o k mem.
Lemma fr_b S a n mem mem' o : frame S a n mem mem' -> o + 1 <= a \/ a + n <= o -> o + 1 <= S -> vb o mem' = vb o mem.
Proof. intros F H K. unfold v_bool. rewrite (F o 1 H K). reflexivity. Qed.
Lemma fr_n S a n mem mem' t o : frame S a n mem mem' -> o + sz te t <= a \/ a + n <= o -> o + sz te t <= S -> vn t o mem' = vn t o mem.
Proof. intros F H K. unfold v_num. rewrite (F o _ H K). reflexivity. Qed.
Lemma fr_s S a n mem mem' o : frame S a n mem mem' -> o + SA <= a \/ a + n <= o -> o + SA <= S -> vs o mem' = vs o mem.
Proof. intros F H K. unfold v_sa. rewrite (F o _ H K). reflexivity. Qed.

Definition all_zero (S : N) (mem : list N) : Prop := forall a n, a + n <= S -> get_at a n mem = Base.zeros (N.to_nat n).
Lemma y2n_zeros n : y2n be (Base.zeros n) = 0.
Proof. unfold y2n. destruct be; [|rewrite zeros_rev]; apply be_get_zeros. Qed.
Lemma zero_b S mem a : all_zero S mem -> a + 1 <= S -> vb a mem = false.
Proof. intros Z H. unfold v_bool. rewrite (Z a 1 H). reflexivity. Qed.
Lemma zero_n S mem t a : all_zero S mem -> a + sz te t <= S -> vn t a mem = 0.
Proof. intros Z H. unfold v_num. rewrite (Z a _ H). apply y2n_zeros. Qed.
Lemma zero_s S mem a : all_zero S mem -> a + SA <= S -> vs a mem = SaUnspec.
Proof. intros Z H. unfold v_sa. rewrite (Z a _ H). exact (proj2 HS). Qed.
Lemma all_zero_of mem : Forall (fun b => b = 0) mem -> all_zero (lenN mem) mem.
Proof. intros F a n H. apply get_zero; assumption. Qed.

(* ---------------------------------------------------------------- steps *)
Lemma ref_end {B} S (c : mm unit) mem (r : res B) Q : ref S (_ <~ c ;; ret tt) mem r Q -> ref S c mem r Q.
Proof.
  unfold ref, bindm, ret. destruct r as [b|e|u]; [|intros (m' & E & L); exists m'; destruct (c mem) as [m1 [x|e1|u1]]; inversion E; auto|trivial].
  intros (m' & a & E & L & H). exists m', a. destruct (c mem) as [m1 [x|e1|u1]]; inversion E; subst. destruct x. auto.
Qed.
Lemma ref_assoc {A B C D} S (c : mm A) (f : A -> mm B) (g : B -> mm C) mem (r : res D) Q :
  ref S (x <~ c ;; y <~ f x ;; g y) mem r Q -> ref S (y <~ (x <~ c ;; f x) ;; g y) mem r Q.
Proof. unfold ref, bindm. destruct (c mem) as [m1 [x|e1|u1]]; auto. Qed.
Lemma ref_b {C D} S a (b : bool) (f : unit -> mm C) mem (r : res D) Q : lenN mem = S -> a + 1 <= S ->
  (forall mem', lenN mem' = S -> vb a mem' = b -> frame S a 1 mem mem' -> ref S (f tt) mem' r Q) -> ref S (bindm (st_bool a b) f) mem r Q.
Proof.
  intros L H K. apply ref_wr; [exact L|exact H|]. intros mem' L' G F. apply K; [exact L'| |exact F]. unfold v_bool. change 1 with (lenN (b2y b)). rewrite G. apply y2b_b2y.
Qed.
Lemma ref_n {C D} S t a x (f : unit -> mm C) mem (r : res D) Q : lenN mem = S -> a + sz te t <= S -> x < 256 ^ sz te t ->
  (forall mem', lenN mem' = S -> vn t a mem' = x -> frame S a (sz te t) mem mem' -> ref S (f tt) mem' r Q) -> ref S (bindm (st_num te be t a x) f) mem r Q.
Proof.
  intros L H X K. assert (LN : lenN (n2y be (N.to_nat (sz te t)) x) = sz te t) by (rewrite n2y_len; lia).
  apply ref_wr; [exact L|rewrite LN; exact H|]. rewrite LN. intros mem' L' G F. apply K; [exact L'| |exact F]. unfold v_num. rewrite G. apply y2n_n2y. rewrite N2Nat.id. exact X.
Qed.
Lemma ref_s {C D} S a o (f : unit -> mm C) mem (r : res D) Q : lenN mem = S -> a + SA <= S -> bytes_ok o -> lenN o = 4 \/ lenN o = 16 ->
  (forall mem', lenN mem' = S -> vs a mem' = sa_from_octets o -> frame S a SA mem mem' -> ref S (f tt) mem' r Q) -> ref S (bindm (st_sa sa_img a o) f) mem r Q.
Proof.
  intros L H B O K. destruct (proj1 HS o B O) as [LN R].
  apply ref_wr; [exact L|rewrite LN; exact H|]. rewrite LN. intros mem' L' G F. apply K; [exact L'| |exact F]. unfold v_sa. rewrite G. exact R.
Qed.
Lemma ref_ldb {C D} S a (f : bool -> mm C) mem (r : res D) Q : lenN mem = S -> a + 1 <= S -> ref S (f (vb a mem)) mem r Q -> ref S (bindm (ld_bool a) f) mem r Q.
Proof. intros L H K. eapply ref_skip; [|exact K]. unfold ld_bool, bindm. rewrite rd_get by lia. reflexivity. Qed.
Lemma ref_ldn {C D} S t a (f : N -> mm C) mem (r : res D) Q : lenN mem = S -> a + sz te t <= S -> ref S (f (vn t a mem)) mem r Q -> ref S (bindm (ld_num te be t a) f) mem r Q.
Proof. intros L H K. eapply ref_skip; [|exact K]. unfold ld_num, bindm. rewrite rd_get by lia. reflexivity. Qed.
(* a test and its negation *)
Lemma ref_if {C D} S (b b' : bool) e (f : unit -> mm C) mem (r : res D) Q : lenN mem = S -> b' = negb b ->
  (b = true -> ref S (f tt) mem r Q) -> ref S (bindm (ensure b e) f) mem (if b' then Err e else r) Q.
Proof.
  intros L -> H. destruct b; cbn [ensure negb].
  - eapply ref_skip; [reflexivity|]. exact (H eq_refl).
  - exists mem. split; [reflexivity|exact L].
Qed.
Lemma ge_lt a b : (b <? a) = negb (a <=? b).
Proof. rewrite N.leb_antisym, negb_involutive. reflexivity. Qed.
Lemma ref_rd {C D} S m n (f : list N -> mm C) mem (g : list N -> res D) Q : lenN mem = S -> bytes_ok m ->
  (forall l, bytes_ok l -> lenN l = n -> ref S (f l) mem (g l) Q) -> ref S (bindm (src m 0 n) f) mem (bind (rdN n m) g) Q.
Proof.
  intros L B H. change (rdN n m) with (at_ofs m 0 n). apply ref_src; [exact L|]. intros l E. destruct (at_ofs_ok _ _ _ _ B E). auto.
Qed.
Lemma ref_rdbe {C D} S m n (f : list N -> mm C) mem (g : N -> res D) Q : lenN mem = S -> bytes_ok m ->
  (forall l, bytes_ok l -> lenN l = n -> ref S (f l) mem (g (be_get l)) Q) -> ref S (bindm (src m 0 n) f) mem (bind (rd_be n m) g) Q.
Proof.
  intros L B H. unfold rd_be. replace (bind (bind (rdN n m) (fun l => Ok (be_get l))) g) with (bind (rdN n m) (fun l => g (be_get l))) by (destruct (rdN n m); reflexivity).
  apply ref_rd; assumption.
Qed.
Lemma be_get_lt l n : bytes_ok l -> lenN l = n -> be_get l < 256 ^ n.
Proof. intros B <-. apply be_get_bound, B. Qed.
Lemma lt_pow x a b : x < 256 ^ a -> a <= b -> x < 256 ^ b.
Proof. intros H K. eapply N.lt_le_trans; [exact H|]. apply N.pow_le_mono_r; [lia|exact K]. Qed.

Definition good_any (k : kind) : Prop := forall m len mem, bytes_ok m -> lenN mem = sz te (ktype k) ->
  ref (sz te (ktype k)) (c_dec te be sa_img k m len) mem (dec_of k m len) (fun mem' _ v => c_val te be sa_rd k mem' = v).
Definition good (k : kind) : Prop := forall m len mem, bytes_ok m -> lenN mem = sz te (ktype k) -> all_zero (sz te (ktype k)) mem ->
  ref (sz te (ktype k)) (c_dec te be sa_img k m len) mem (dec_of k m len) (fun mem' _ v => c_val te be sa_rd k mem' = v).

Ltac bases := destruct HB as (B_bool & B_char & B_8 & B_16 & B_32 & B_64 & B_cause & B_iei & B_3gpp & B_src & B_dst & B_nidt & B_ohr).
Lemma num_end S t x mem (Q : list N -> unit -> iev -> Prop) : lenN mem = S -> sz te t = S -> x < 256 ^ S -> (forall mem', vn t 0 mem' = x -> Q mem' tt (IvNum x)) ->
  ref S (st_num te be t 0 x) mem (Ok (IvNum x)) Q.
Proof. intros L E X K. apply ref_end. apply ref_n; [exact L|lia|rewrite E; exact X|]. intros mem' L' V _. apply ref_ret; [exact L'|apply K, V]. Qed.
Lemma land_mod63 x : N.land x 63 = x mod 64.
Proof. change 63 with (N.ones 6). rewrite N.land_ones. reflexivity. Qed.
Lemma land_mod15 x : N.land x 15 = x mod 16.
Proof. change 15 with (N.ones 4). rewrite N.land_ones. reflexivity. Qed.

Ltac num_tac := intros m len mem Bm L; cbn [c_dec c_num dec_of c_val ktype] in *; apply ref_if; [exact L|first [apply ge_lt|reflexivity]|]; intros _;
  apply ref_rdbe; [exact L|exact Bm|]; intros l Bl Ll; rewrite ?land_mod63, ?land_mod15; apply num_end; [exact L|reflexivity| |intros mem' V; rewrite V; reflexivity].
Lemma good_cause : good_any KCause.
Proof. bases. num_tac. eapply lt_pow; [apply be_get_lt; eassumption|exact B_cause]. Qed.
Lemma good_iei : good_any KOffendingIe.
Proof. bases. num_tac. eapply lt_pow; [apply be_get_lt; eassumption|exact B_iei]. Qed.
Lemma good_8 : good_any K8.
Proof. bases. num_tac. eapply lt_pow; [apply be_get_lt; eassumption|lia]. Qed.
Lemma good_16 : good_any K16.
Proof. bases. num_tac. eapply lt_pow; [apply be_get_lt; eassumption|lia]. Qed.
Lemma good_32 : good_any K32.
Proof. bases. num_tac. eapply lt_pow; [apply be_get_lt; eassumption|lia]. Qed.
Lemma mod_lt256 x k : 0 < k -> k <= 256 -> x mod k < 256 ^ 1.
Proof. intros H K. pose proof (N.mod_lt x k). change (256 ^ 1) with 256. lia. Qed.
Lemma good_3gpp : good_any K3gppIface.
Proof. bases. num_tac. eapply lt_pow; [apply mod_lt256; lia|exact B_3gpp]. Qed.
Lemma good_src : good_any KSrcIface.
Proof. bases. num_tac. eapply lt_pow; [apply mod_lt256; lia|exact B_src]. Qed.
Lemma good_dst : good_any KDstIface.
Proof. bases. num_tac. eapply lt_pow; [apply mod_lt256; lia|exact B_dst]. Qed.

(* ---------------------------------------------------------------- layouts of pfcp_ies_custom.h *)
Lemma lay n h : nth_error custom_h n = Some h -> laid_out te h.
Proof. intros E. apply nth_error_In in E. rewrite Forall_forall in HL. exact (HL h E). Qed.
Ltac lay_in L := unfold laid_out, chain, member_sz, mb, mba in L; cbn [mb_name mb_arr mb_type] in L.
Ltac layout n L := pose proof (lay n _ eq_refl) as L; lay_in L.

(* ---------------------------------------------------------------- bit fields *)
Lemma padded S o n mem (b : list N) : lenN mem = S -> o + n <= S -> lenN b <= n -> get_at o n mem = Base.zeros (N.to_nat n) ->
  ref S (wr o b) mem (Ok (IvBits (b ++ Base.zeros (N.to_nat (n - lenN b))))) (fun mem' _ v => IvBits (get_at o n mem') = v).
Proof.
  intros L H K Z. apply ref_wr_end; [exact L|lia|]. intros mem' L' G F. f_equal. replace n with (lenN b + (n - lenN b)) at 1 by lia. rewrite get_app_at, G. f_equal.
  rewrite F by lia. replace n with (lenN b + (n - lenN b)) in Z at 1 by lia. rewrite get_app_at in Z.
  replace (N.to_nat n) with (N.to_nat (lenN b) + N.to_nat (n - lenN b))%nat in Z by lia. rewrite zeros_plus in Z.
  apply app_inj_len in Z; [exact Z|]. rewrite zeros_length. pose proof (get_len o (lenN b) mem). unfold lenN in *. lia.
Qed.
Lemma good_up : good_any KUpFF.
Proof.
  bases. intros m len mem Bm L. cbn [c_dec dec_of c_val ktype] in *. layout 3%nat Y. rewrite B_8 in Y. unfold c_up_ff, dec_up_ff, dec_bits_padded, st_zero.
  apply ref_wr; [exact L|rewrite zeros_lenN; lia|]. intros mem1 L1 G1 F1. rewrite zeros_lenN in G1. apply ref_rd; [exact L1|exact Bm|]. intros l Bl Ll.
  rewrite <- Ll. apply padded; [exact L1|lia|lia|exact G1].
Qed.
Lemma good_cp : good_any KCpFF.
Proof.
  bases. intros m len mem Bm L. cbn [c_dec dec_of c_val ktype] in *. layout 4%nat Y. rewrite B_8 in Y. unfold c_cp_ff, dec_cp_ff.
  apply ref_if; [exact L|apply ge_lt|]. intros _. apply ref_rd; [exact L|exact Bm|]. intros l Bl Ll.
  apply ref_wr_end; [exact L|lia|]. intros mem' L' G F. rewrite Ll in G. rewrite G. reflexivity.
Qed.
Lemma good_apply : good_any KApplyAction.
Proof.
  bases. intros m len mem Bm L. cbn [c_dec dec_of c_val ktype] in *. layout 11%nat Y. rewrite B_8 in Y. unfold c_apply_action, dec_apply_action, dec_bits_padded, st_zero.
  apply ref_if; [exact L|apply ge_lt|]. intros _. apply ref_wr; [exact L|rewrite zeros_lenN; lia|]. intros mem1 L1 G1 F1. rewrite zeros_lenN in G1.
  rewrite N.min_comm. apply ref_rd; [exact L1|exact Bm|]. intros l Bl Ll.
  rewrite <- Ll. apply padded; [exact L1|lia|lia|]. apply get_zero; [lia|]. pose proof (get_all _ _ L1) as A. rewrite <- A, G1. apply zeros_zero.
Qed.

(* ---------------------------------------------------------------- members that a store does not touch *)
Ltac held :=
  first [ assumption | reflexivity
  | match goal with
    | F : frame _ _ _ _ ?m |- v_bool ?o ?m = _ => rewrite (fr_b _ _ _ _ _ o F) by lia; held
    | F : frame _ _ _ _ ?m |- v_num _ _ ?t ?o ?m = _ => rewrite (fr_n _ _ _ _ _ t o F) by lia; held
    | F : frame _ _ _ _ ?m |- v_sa _ _ ?o ?m = _ => rewrite (fr_s _ _ _ _ _ o F) by lia; held
    | F : frame _ _ _ _ ?m |- get_at ?o ?n ?m = _ => rewrite (F o n) by lia; held
    | Z : all_zero _ ?m |- v_bool ?o ?m = _ => apply (zero_b _ _ _ Z); lia
    | Z : all_zero _ ?m |- v_num _ _ ?t ?o ?m = _ => apply (zero_n _ _ t _ Z); lia
    | Z : all_zero _ ?m |- v_sa _ _ ?o ?m = _ => apply (zero_s _ _ _ Z); lia
    end ].
Ltac atoms := repeat match goal with |- context [fo te ?t ?n] => let x := fresh "o" in set (x := fo te t n) in *; clearbody x end.
Lemma ref_take2 {C D} S m len pos n (f : list N -> mm C) mem (g : list N -> res D) Q : lenN mem = S -> pos <= len -> bytes_ok m ->
  (forall l, pos + n <= len -> bytes_ok l -> lenN l = n -> ref S (f l) mem (g l) Q) ->
  ref S (_ <~ remaining len pos n ;; bindm (src m pos n) f) mem (bind (take m len pos n) g) Q.
Proof. intros L HP B H. apply ref_take; [exact L|exact HP|]. intros l K E. destruct (at_ofs_ok _ _ _ _ B E). auto. Qed.
Lemma ref_take3 {C D} S m len pos n (f : list N -> mm C) mem (g : list N -> res D) Q : lenN mem = S -> pos <= len -> bytes_ok m ->
  (forall l, pos + n <= len -> bytes_ok l -> lenN l = n -> ref S (f l) mem (g l) Q) ->
  ref S (_ <~ ensure (pos + n <=? len) EINVAL ;; bindm (src m pos n) f) mem (bind (take m len pos n) g) Q.
Proof.
  intros L HP B H. replace (ensure (pos + n <=? len) EINVAL) with (remaining len pos n); [apply ref_take2; assumption|].
  unfold remaining. rewrite size_sub_le by exact HP. f_equal. destruct (N.leb_spec n (len - pos)), (N.leb_spec (pos + n) len); lia || reflexivity.
Qed.
Lemma ref_src2 {C D} S m o n (f : list N -> mm C) mem (g : list N -> res D) Q : lenN mem = S -> bytes_ok m ->
  (forall l, bytes_ok l -> lenN l = n -> ref S (f l) mem (g l) Q) -> ref S (bindm (src m o n) f) mem (bind (at_ofs m o n) g) Q.
Proof. intros L B H. apply ref_src; [exact L|]. intros l E. destruct (at_ofs_ok _ _ _ _ B E). auto. Qed.

Lemma frame_refl S a n mem : frame S a n mem mem.
Proof. intros o k _ _. reflexivity. Qed.
Lemma frame_in S a n mem0 mem mem' a' n' : frame S a n mem0 mem -> frame S a' n' mem mem' -> a <= a' -> a' + n' <= a + n -> frame S a n mem0 mem'.
Proof. intros F G H K o k C D. rewrite (G o k) by lia. apply F; assumption. Qed.
Lemma ensure_remaining len pos n : pos <= len -> ensure (pos + n <=? len) EINVAL = remaining len pos n.
Proof.
  intros HP. unfold remaining. rewrite size_sub_le by exact HP. f_equal. destruct (N.leb_spec n (len - pos)), (N.leb_spec (pos + n) len); lia || reflexivity.
Qed.
Lemma ref_opt {A} S m len pos n (c : bool) (x : mm unit) (h : list N -> A) (d : A) mem (P : list N -> A -> Prop) : lenN mem = S -> pos <= len ->
  (c = true -> ref S x mem (take m len pos n) (fun mem' _ l => P mem' (h l))) -> (c = false -> P mem d) ->
  ref S (opt_part c pos n x) mem (if c then l <- take m len pos n ;; Ok (h l, pos + n) else Ok (d, pos)) (fun mem' p y => p = snd y /\ p <= len /\ P mem' (fst y)).
Proof.
  intros L HP H1 H0. unfold opt_part. destruct c.
  - eapply ref_bind; [exact (H1 eq_refl)|]. intros mem' a l L' E HQ. cbv beta in HQ. apply ref_ret; [exact L'|]. cbn [fst snd]. split; [reflexivity|]. split; [|exact HQ].
    unfold take in E. destruct (N.ltb_spec (len - pos) n); [discriminate|lia].
  - apply ref_ret; [exact L|]. cbn [fst snd]. auto.
Qed.
Lemma bind_ok_r {A} (r : res A) : r = bind r Ok.
Proof. destruct r; reflexivity. Qed.
(* the two optional addresses, with their flags already stored *)
Definition addrs_at (a4p a4 a6p a6 : N) (mem : list N) (x : ip_addrs) : Prop := vb a4p mem = ia_v4p x /\ vs a4 mem = ia_v4 x /\ vb a6p mem = ia_v6p x /\ vs a6 mem = ia_v6 x.
Lemma ref_opt_sa S m len pos n a (c : bool) chk mem : lenN mem = S -> bytes_ok m -> pos <= len -> a + SA <= S -> n = 4 \/ n = 16 -> chk = remaining len pos n -> vs a mem = SaUnspec ->
  ref S (opt_part c pos n (_ <~ chk ;; x <~ src m pos n ;; st_sa sa_img a x)) mem
    (if c then x <- take m len pos n ;; Ok (sa_from_octets x, pos + n) else Ok (SaUnspec, pos))
    (fun mem' p y => p = snd y /\ p <= len /\ vs a mem' = fst y /\ frame S a SA mem mem').
Proof.
  intros L B P H N4 -> V. apply (ref_opt S m len pos n c _ sa_from_octets SaUnspec mem (fun mem' x => vs a mem' = x /\ frame S a SA mem mem')); [exact L|exact P| |].
  - intros _. rewrite (bind_ok_r (take m len pos n)). apply ref_take2; [exact L|exact P|exact B|]. intros l K Bl Ll.
    apply ref_end. apply ref_s; [exact L|exact H|exact Bl|lia|]. intros mem' L' V' F. apply ref_ret; [exact L'|auto].
  - intros _. split; [exact V|apply frame_refl].
Qed.
Lemma ref_addrs {C D} S m len pos a4p a4 a6p a6 base size v4 v6 (chk : N -> N -> mm unit) (K : N -> mm C) mem (g : ip_addrs * N -> res D) Q :
  lenN mem = S -> bytes_ok m -> pos <= len -> (forall p n, p <= len -> chk p n = remaining len p n) ->
  base <= a4p -> a4p + 1 <= a4 -> a4 + SA <= a6p -> a6p + 1 <= a6 -> a6 + SA <= base + size -> base + size <= S ->
  addrs_at a4p a4 a6p a6 mem (mkAddrs v4 SaUnspec v6 SaUnspec) ->
  (forall mem' x p, lenN mem' = S -> p <= len -> addrs_at a4p a4 a6p a6 mem' x -> frame S base size mem mem' -> ref S (K p) mem' (g (x, p)) Q) ->
  ref S (c4 <~ ld_bool a4p ;; p <~ opt_part c4 pos 4 (_ <~ chk pos 4 ;; x <~ src m pos 4 ;; st_sa sa_img a4 x) ;;
         c6 <~ ld_bool a6p ;; q <~ opt_part c6 p 16 (_ <~ chk p 16 ;; x <~ src m p 16 ;; st_sa sa_img a6 x) ;; K q) mem
    (bind (dec_addrs m len pos v4 v6) g) Q.
Proof.
  intros L B P HC H1 H2 H3 H4 H5 H6 (W1 & W2 & W3 & W4) HK. cbn [ia_v4p ia_v4 ia_v6p ia_v6] in *.
  unfold dec_addrs. rewrite bind_assoc. apply ref_ldb; [exact L|lia|]. rewrite W1. eapply ref_bind; [apply ref_opt_sa; [exact L|exact B|exact P|lia|auto|apply HC; exact P|exact W2]|].
  intros mem1 p [s4 p'] L1 _ (-> & Q1 & V1 & F1). cbn [fst snd] in *. rewrite bind_assoc. apply ref_ldb; [exact L1|lia|].
  assert (W3' : vb a6p mem1 = v6) by held. rewrite W3'. eapply ref_bind; [apply ref_opt_sa; [exact L1|exact B|exact Q1|lia|auto|apply HC; exact Q1|held]|].
  intros mem2 q [s6 q'] L2 _ (-> & Q2 & V2 & F2). cbn [fst snd] in *. cbn [bind]. apply HK; [exact L2|exact Q2| |].
  - unfold addrs_at. cbn [ia_v4p ia_v4 ia_v6p ia_v6]. do 3 (split; [held|]). held.
  - eapply frame_in; [eapply frame_in; [apply frame_refl|exact F1|lia|lia]|exact F2|lia|lia].
Qed.
Lemma addrs_eq base mem x : addrs_at (base + fo te IPA "v4_present") (base + fo te IPA "v4") (base + fo te IPA "v6_present") (base + fo te IPA "v6") mem x -> v_addrs te sa_rd base mem = x.
Proof. intros (H1 & H2 & H3 & H4). unfold v_addrs. rewrite H1, H2, H3, H4. destruct x; reflexivity. Qed.

Ltac addrs_goal H := let a := fresh in let b := fresh in let c := fresh in let d := fresh in
  destruct H as (a & b & c & d); rewrite a, b, c, d.
Ltac addrs_held := unfold addrs_at; cbn [ia_v4p ia_v4 ia_v6p ia_v6]; do 3 (split; [held|]); held.
Lemma good_fseid : good KFSeid.
Proof.
  bases. intros m len mem Bm L Z. cbn [c_dec dec_of c_val ktype] in *. layout 5%nat Y. layout 0%nat A. rewrite B_64 in Y. rewrite B_bool in A. unfold c_f_seid, dec_f_seid, v_addrs. cbv zeta.
  revert Y A. set (SF := sz te F_SEID) in *. clearbody SF. set (SI := sz te IPA). clearbody SI. atoms. intros Y A.
  apply ref_if; [exact L|apply ge_lt|]. intros K. apply N.leb_le in K. apply ref_rdbe; [exact L|exact Bm|]. intros l Bl Ll.
  apply ref_b; [exact L|lia|]. intros mem1 L1 V1 F1. apply ref_b; [exact L1|lia|]. intros mem2 L2 V2 F2.
  apply ref_src2; [exact L2|exact Bm|]. intros s Bs Ls. apply ref_n; [exact L2|rewrite B_64; lia|rewrite B_64; apply be_get_lt; assumption|]. rewrite B_64. intros mem3 L3 V3 F3.
  apply (ref_addrs _ m len 9 _ _ _ _ o0 SI _ _ (fun p n => ensure (p + n <=? len) EINVAL)); try lia; try assumption.
  - intros p n. apply ensure_remaining.
  - addrs_held.
  - intros mem4 x p L4 _ H4 F4. apply ref_ret; [exact L4|]. cbn [fst]. assert (V : vn "uint64_t" o mem4 = be_get s) by held. rewrite V. addrs_goal H4. destruct x; reflexivity.
Qed.

Lemma all_zero_wr {C D} S (f : unit -> mm C) mem (r : res D) Q : lenN mem = S -> (forall mem', lenN mem' = S -> all_zero S mem' -> ref S (f tt) mem' r Q) ->
  ref S (bindm (st_zero 0 S) f) mem r Q.
Proof.
  intros L K. unfold st_zero. apply ref_wr; [exact L|rewrite zeros_lenN; lia|]. intros mem' L' G _. rewrite zeros_lenN in G. apply K; [exact L'|].
  pose proof (get_all _ _ L') as A. rewrite G in A. rewrite <- A. rewrite <- (zeros_lenN S) at 1. apply all_zero_of, zeros_zero.
Qed.
Ltac slim := repeat match goal with B : _ <= sz te _ |- _ => clear B end.
Lemma good_fteid : good_any KFTeid.
Proof.
  bases. slim. intros m len mem Bm L. cbn [c_dec dec_of c_val ktype] in *. layout 9%nat Y. layout 8%nat U. layout 6%nat X. layout 7%nat H. layout 0%nat A.
  apply Forall_cons_iff in U. destruct U as [[U1 U2] U]. apply Forall_cons_iff in U. destruct U as [[U3 U4] _]. cbn [mb_name mb_arr mb_type] in U1, U2, U3, U4.
  rewrite B_bool in Y, A, H. rewrite B_32 in X. rewrite B_8 in H. unfold c_f_teid, dec_f_teid, v_addrs. cbv zeta.
  revert Y U1 U2 U3 U4 X H A L. set (SF := sz te F_TEID). set (SU := sz te "f_teid.u"). set (SX := sz te "f_teid.fixed"). set (SC := sz te "f_teid.choose"). set (SI := sz te IPA). clearbody SF SU SX SC SI.
  atoms. intros Y U1 U2 U3 U4 X H A L.
  apply all_zero_wr; [exact L|]. clear L mem. intros mem L Z.
  apply ref_take2; [exact L|lia|exact Bm|]. intros l K Bl Ll. apply ref_b; [exact L|lia|]. intros mem1 L1 V1 F1. apply ref_ldb; [exact L1|lia|]. rewrite V1.
  destruct (flag (be_get l) 4) eqn:E4; cbn [negb].
  - apply ref_b; [exact L1|lia|]. intros mem2 L2 V2 F2. apply ref_b; [exact L2|lia|]. intros mem3 L3 V3 F3. apply ref_b; [exact L3|lia|]. intros mem4 L4 V4 F4.
    apply ref_ldb; [exact L4|lia|]. rewrite V4. assert (C1 : vb o mem4 = true) by held. assert (C2 : vb (o0 + o2 + o5) mem4 = flag (be_get l) 1) by held. assert (C3 : vb (o0 + o2 + o6) mem4 = flag (be_get l) 2) by held.
    destruct (flag (be_get l) 8).
    + apply ref_take2; [exact L4|lia|exact Bm|]. intros i K2 Bi Li. apply ref_end. apply ref_n; [exact L4|rewrite B_8; lia|rewrite B_8; apply be_get_lt; assumption|]. rewrite B_8. intros mem5 L5 V5 F5.
      apply ref_ret; [exact L5|]. assert (D1 : vb o mem5 = true) by held. rewrite D1, V5. f_equal. f_equal; held.
    + apply ref_ret; [exact L4|]. rewrite C1. f_equal. f_equal; held.
  - apply ref_b; [exact L1|lia|]. intros mem2 L2 V2 F2. apply ref_b; [exact L2|lia|]. intros mem3 L3 V3 F3.
    apply ref_take2; [exact L3|lia|exact Bm|]. intros t K2 Bt Lt. apply ref_n; [exact L3|rewrite B_32; lia|rewrite B_32; apply be_get_lt; assumption|]. rewrite B_32. intros mem4 L4 V4 F4.
    apply (ref_addrs _ m len 5 _ _ _ _ (o0 + o1 + o4) SI _ _ (remaining len)); try lia; try assumption.
    + reflexivity.
    + addrs_held.
    + intros mem5 x p L5 _ H5 F5. apply ref_ret; [exact L5|]. cbn [fst]. assert (D1 : vb o mem5 = false) by held. rewrite D1. assert (D2 : vn "uint32_t" (o0 + o1 + o3) mem5 = be_get t) by held.
      rewrite D2. addrs_goal H5. destruct x; reflexivity.
Qed.
Lemma ref_opt_num S m len pos n t a (c : bool) mem : lenN mem = S -> bytes_ok m -> pos <= len -> a + sz te t <= S -> n <= sz te t -> vn t a mem = 0 ->
  ref S (opt_part c pos n (_ <~ remaining len pos n ;; x <~ src m pos n ;; st_num te be t a (be_get x))) mem (dec_opt m len pos n c)
    (fun mem' p y => p = snd y /\ p <= len /\ vn t a mem' = fst y /\ frame S a (sz te t) mem mem').
Proof.
  intros L B P H HN V. apply (ref_opt S m len pos n c _ be_get 0 mem (fun mem' x => vn t a mem' = x /\ frame S a (sz te t) mem mem')); [exact L|exact P| |].
  - intros _. rewrite (bind_ok_r (take m len pos n)). apply ref_take2; [exact L|exact P|exact B|]. intros l K Bl Ll.
    apply ref_end. apply ref_n; [exact L|exact H|eapply lt_pow; [apply be_get_lt; eassumption|exact HN]|]. intros mem' L' V' F. apply ref_ret; [exact L'|auto].
  - intros _. split; [exact V|apply frame_refl].
Qed.
Lemma good_ueip : good KUeIp.
Proof.
  bases. slim. intros m len mem Bm L Z. cbn [c_dec dec_of c_val ktype] in *. layout 10%nat Y. layout 0%nat A. rewrite B_bool in Y, A. rewrite B_8 in Y. unfold c_ue_ip, dec_ue_ip, v_addrs. cbv zeta.
  revert Y A. set (SF := sz te UE_IP) in *. clearbody SF. set (SI := sz te IPA). clearbody SI. atoms. intros Y A.
  apply ref_take2; [exact L|lia|exact Bm|]. intros l K Bl Ll.
  apply ref_b; [exact L|lia|]. intros mem1 L1 V1 F1. apply ref_b; [exact L1|lia|]. intros mem2 L2 V2 F2. apply ref_b; [exact L2|lia|]. intros mem3 L3 V3 F3.
  apply ref_b; [exact L3|lia|]. intros mem4 L4 V4 F4. apply ref_b; [exact L4|lia|]. intros mem5 L5 V5 F5. apply ref_b; [exact L5|lia|]. intros mem6 L6 V6 F6.
  apply ref_b; [exact L6|lia|]. intros mem7 L7 V7 F7.
  apply (ref_addrs _ m len 1 _ _ _ _ o2 SI _ _ (remaining len)); try lia; try assumption.
  - reflexivity.
  - addrs_held.
  - intros mem8 x p L8 P8 H8 F8. cbn [fst snd].
    assert (C1 : vb o mem8 = flag (be_get l) 32) by held. assert (C2 : vb o0 mem8 = flag (be_get l) 16) by held. assert (C3 : vb o1 mem8 = flag (be_get l) 4) by held.
    assert (C4 : vb o3 mem8 = flag (be_get l) 8) by held. assert (C5 : vb o5 mem8 = flag (be_get l) 64) by held.
    assert (C6 : vn "uint8_t" o4 mem8 = 0) by held. assert (C7 : vn "uint8_t" o6 mem8 = 0) by held.
    clear V1 F1 V2 F2 V3 F3 V4 F4 V5 F5 V6 F6 V7 F7 F8 Z.
    apply ref_ldb; [exact L8|lia|]. rewrite C4. eapply ref_bind; [apply ref_opt_num; [exact L8|exact Bm|exact P8|rewrite B_8; lia|lia|exact C6]|].
    intros mem9 q [d q'] L9 _ (-> & P9 & V9 & F9). cbn [fst snd] in *. rewrite B_8 in F9.
    apply ref_ldb; [exact L9|lia|]. assert (C8 : vb o5 mem9 = flag (be_get l) 64) by held. rewrite C8.
    eapply ref_bind; [apply ref_opt_num; [exact L9|exact Bm|exact P9|rewrite B_8; lia|lia|held]|].
    intros mem10 q [e q''] L10 _ (-> & P10 & V10 & F10). cbn [fst snd] in *. rewrite B_8 in F10. apply ref_ret; [exact L10|].
    f_equal. destruct H8 as (h1 & h2 & h3 & h4). f_equal; try held. destruct x as [x1 x2 x3 x4]. cbn [ia_v4p ia_v4 ia_v6p ia_v6] in *. f_equal; held.
Qed.
Lemma good_ohr : good KOhr.
Proof.
  bases. intros m len mem Bm L Z. cbn [c_dec dec_of c_val ktype] in *. layout 15%nat Y. rewrite B_bool, B_8 in Y. unfold c_ohr, dec_ohr.
  set (E := "enum osmo_pfcp_outer_header_removal_desc") in *. clearbody E. clear B_cause B_iei B_3gpp B_src B_dst B_nidt.
  revert Y. set (SF := sz te OHR) in *. clearbody SF. atoms. intros Y.
  apply ref_if; [exact L|apply ge_lt|]. intros _. apply ref_rdbe; [exact L|exact Bm|]. intros l Bl Ll.
  apply ref_n; [exact L|lia|eapply lt_pow; [apply be_get_lt; eassumption|exact B_ohr]|]. intros mem1 L1 V1 F1.
  destruct (1 <? len).
  - apply ref_b; [exact L1|lia|]. intros mem2 L2 V2 F2. apply ref_src2; [exact L2|exact Bm|]. intros b Bb Lb. apply ref_end. apply ref_wr; [exact L2|lia|]. rewrite Lb. intros mem3 L3 V3 F3.
    change (frame SF o1 1 mem2 mem3) in F3. apply ref_ret; [exact L3|]. f_equal. f_equal; held.
  - apply ref_ret; [exact L1|]. f_equal. f_equal; try held. rewrite F1 by lia. rewrite Z by lia. reflexivity.
Qed.

(* ---------------------------------------------------------------- strings *)
Lemma good_rules : good_any KActPredef.
Proof.
  bases. slim. intros m len mem Bm L. cbn [c_dec dec_of c_val ktype] in *. layout 13%nat Y. rewrite B_char in Y. unfold c_act_predef, dec_act_predef. cbv zeta.
  revert Y. set (SF := sz te RULES) in *. clearbody SF. atoms. intros Y.
  destruct (osmo_strlcpy m (N.min 256 (len + 1))) as [s|e|u] eqn:E; cbn [bind]; [|exists mem; split; [reflexivity|exact L]|exact I].
  destruct (strlcpy_spec m (N.min 256 (len + 1)) s ltac:(lia) E) as [Ls NZ].
  eapply ref_skip; [reflexivity|]. apply ref_wr; [exact L|lia|]. intros mem1 L1 V1 F1. apply ref_wr_end; [exact L1|change (lenN [0]) with 1; lia|]. change (lenN [0]) with 1. intros mem2 L2 V2 F2.
  f_equal. rewrite (held_str o 256 mem2 s); [apply cstr_nonzero, NZ|lia|]. rewrite get_app_at, V2. f_equal. rewrite F2 by lia. exact V1.
Qed.
Lemma good_inst : good_any KNetInst.
Proof.
  bases. slim. intros m len mem Bm L. cbn [c_dec dec_of c_val ktype] in *. layout 12%nat Y. rewrite B_char in Y. unfold c_network_inst, dec_network_inst.
  revert Y. set (SF := sz te NET_INST) in *. clearbody SF. atoms. intros Y.
  apply ref_if; [exact L|rewrite ge_lt, (ge_lt len 254); destruct (1 <=? len), (len <=? 254); reflexivity|]. intros K. apply andb_true_iff in K. destruct K as [K1 K2]. apply N.leb_le in K1, K2.
  apply ref_name; [exact L|exact K1|exact K2|lia|]. intros mem1 ok [s|] L1 HQ; cbv beta iota in HQ.
  - destruct HQ as (-> & V & _). cbn [ensure]. apply ref_ret; [exact L1|]. rewrite V. reflexivity.
  - subst ok. exists mem1. split; [reflexivity|exact L1].
Qed.
Lemma good_node : good_any KNodeId.
Proof.
  bases. intros m len mem Bm L. cbn [c_dec dec_of c_val ktype] in *. layout 2%nat Y. layout 1%nat U. apply Forall_cons_iff in U. destruct U as [[U1 U2] U]. apply Forall_cons_iff in U. destruct U as [[U3 U4] _].
  cbn [mb_name mb_arr mb_type] in U1, U2, U3, U4. rewrite B_char in U4. unfold c_node_id, dec_node_id. cbv zeta.
  revert Y U1 U2 U3 U4 L. set (SF := sz te NODE_ID). set (SU := sz te "node_id.u"). set (E := "enum osmo_pfcp_node_id_type") in *. clearbody E SF SU. clear B_cause B_iei B_3gpp B_src B_dst B_ohr.
  atoms. intros Y U1 U2 U3 U4 L.
  apply ref_if; [exact L|apply ge_lt|]. intros K. apply N.leb_le in K. apply ref_rdbe; [exact L|exact Bm|]. intros l Bl Ll.
  apply ref_n; [exact L|lia|eapply lt_pow; [apply be_get_lt; eassumption|exact B_nidt]|]. intros mem1 L1 V1 F1. apply ref_ldn; [exact L1|lia|]. rewrite V1, size_sub_le by exact K.
  assert (IP : forall (mk : sa -> node_id) t n, t = be_get l -> n = 4 \/ n = 16 -> (forall mem2, (if vn E o mem2 =? 0 then NodeV4 (vs (o0 + o1) mem2) else if vn E o mem2 =? 1 then NodeV6 (vs (o0 + o1) mem2) else
         if vn E o mem2 =? 2 then NodeFqdn (c_str (get_at (o0 + o2) 254 mem2)) else NodeOther (vn E o mem2)) = mk (vs (o0 + o1) mem2) \/ vn E o mem2 <> t) ->
    ref SF (_ <~ ensure (len - 1 =? n) EINVAL ;; ip <~ src m 1 (len - 1) ;; st_sa sa_img (o0 + o1) ip) mem1
      (if negb (len - 1 =? n) then Err EINVAL else a <- at_ofs m 1 (len - 1) ;; Ok (IvNode (mk (sa_from_octets a))))
      (fun mem' _ v => IvNode (if vn E o mem' =? 0 then NodeV4 (vs (o0 + o1) mem') else if vn E o mem' =? 1 then NodeV6 (vs (o0 + o1) mem') else
         if vn E o mem' =? 2 then NodeFqdn (c_str (get_at (o0 + o2) 254 mem')) else NodeOther (vn E o mem')) = v)).
  { intros mk t n Et Hn HM. apply ref_if; [exact L1|reflexivity|]. intros K2. apply N.eqb_eq in K2. apply ref_src2; [exact L1|exact Bm|]. intros a Ba La.
    apply ref_end. apply ref_s; [exact L1|lia|exact Ba|lia|]. intros mem2 L2 V2 F2. apply ref_ret; [exact L2|]. f_equal.
    assert (VT : vn E o mem2 = be_get l) by held. destruct (HM mem2) as [->|C]; [rewrite V2; reflexivity|congruence]. }
  destruct (N.eqb_spec (be_get l) 0) as [T0|T0]; [apply (IP NodeV4 0 4); [congruence|auto|]|].
  { intros mem2. destruct (N.eqb_spec (vn E o mem2) 0); [left; reflexivity|right; assumption]. }
  destruct (N.eqb_spec (be_get l) 1) as [T1|T1]; [apply (IP NodeV6 1 16); [congruence|auto|]|].
  { intros mem2. destruct (N.eqb_spec (vn E o mem2) 1) as [->|C]; [left; reflexivity|right; exact C]. }
  destruct (N.eqb_spec (be_get l) 2) as [T2|T2]; [|exists mem1; split; [reflexivity|exact L1]]. clear IP.
  apply ref_if; [exact L1|rewrite ge_lt, (ge_lt (len - 1) 254); destruct (1 <=? len - 1), (len - 1 <=? 254); reflexivity|]. intros K3. apply andb_true_iff in K3. destruct K3 as [K3 K4]. apply N.leb_le in K3, K4.
  apply ref_name; [exact L1|exact K3|exact K4|lia|]. intros mem2 ok [s|] L2 HQ; cbv beta iota in HQ.
  - destruct HQ as (-> & V & F). cbn [ensure]. apply ref_ret; [exact L2|]. f_equal. assert (VT : vn E o mem2 = 2) by (unfold v_num in *; rewrite F by lia; congruence).
    rewrite VT. change (2 =? 0) with false. change (2 =? 1) with false. change (2 =? 2) with true. cbv iota. rewrite V. reflexivity.
  - subst ok. exists mem2. split; [reflexivity|exact L2].
Qed.

(* ---------------------------------------------------------------- outer header creation: optional parts with a flag *)
Lemma ref_rem {C} S m len pos n (f : unit -> mm C) mem Q : lenN mem = S -> pos <= len -> (pos + n <= len -> ref S (f tt) mem (at_ofs m pos n) Q) ->
  ref S (bindm (remaining len pos n) f) mem (take m len pos n) Q.
Proof.
  intros L HP H. unfold remaining, take. rewrite size_sub_le by exact HP. destruct (N.ltb_spec (len - pos) n) as [K|K].
  - assert (n <=? len - pos = false) as -> by (apply N.leb_gt; exact K). exists mem. split; [reflexivity|exact L].
  - assert (n <=? len - pos = true) as -> by (apply N.leb_le; exact K). eapply ref_skip; [reflexivity|]. apply H. lia.
Qed.
Lemma ref_opt_fn S m len pos n t pa a (c : bool) mem : lenN mem = S -> bytes_ok m -> pos <= len -> pa + 1 <= a -> a + sz te t <= S -> n <= sz te t -> vb pa mem = false -> vn t a mem = 0 ->
  ref S (opt_part c pos n (_ <~ remaining len pos n ;; _ <~ st_bool pa true ;; x <~ src m pos n ;; st_num te be t a (be_get x))) mem (dec_opt m len pos n c)
    (fun mem' p y => p = snd y /\ p <= len /\ vb pa mem' = c /\ vn t a mem' = fst y /\ frame S pa (a + sz te t - pa) mem mem').
Proof.
  intros L B P HA H HN VP V. apply (ref_opt S m len pos n c _ be_get 0 mem (fun mem' x => vb pa mem' = c /\ vn t a mem' = x /\ frame S pa (a + sz te t - pa) mem mem')); [exact L|exact P| |].
  - intros ->. apply ref_rem; [exact L|exact P|]. intros K. apply ref_b; [exact L|lia|]. intros mem1 L1 V1 F1. rewrite (bind_ok_r (at_ofs m pos n)). apply ref_src2; [exact L1|exact B|]. intros l Bl Ll.
    apply ref_end. apply ref_n; [exact L1|exact H|eapply lt_pow; [apply be_get_lt; eassumption|exact HN]|]. intros mem2 L2 V2 F2. apply ref_ret; [exact L2|]. split; [held|]. split; [exact V2|].
    eapply frame_in; [eapply frame_in; [apply frame_refl|exact F1|lia|lia]|exact F2|lia|lia].
  - intros ->. split; [exact VP|]. split; [exact V|apply frame_refl].
Qed.
Lemma ref_opt_ftag S m len pos n t pa a (c : bool) mem : lenN mem = S -> bytes_ok m -> pos <= len -> pa + 1 <= a -> a + sz te t <= S -> n <= sz te t -> vb pa mem = false -> vn t a mem = 0 ->
  ref S (opt_part c pos n (_ <~ st_bool pa true ;; _ <~ remaining len pos n ;; _ <~ st_bool pa true ;; x <~ src m pos n ;; st_num te be t a (be_get x))) mem (dec_opt m len pos n c)
    (fun mem' p y => p = snd y /\ p <= len /\ vb pa mem' = c /\ vn t a mem' = fst y /\ frame S pa (a + sz te t - pa) mem mem').
Proof.
  intros L B P HA H HN VP V. apply (ref_opt S m len pos n c _ be_get 0 mem (fun mem' x => vb pa mem' = c /\ vn t a mem' = x /\ frame S pa (a + sz te t - pa) mem mem')); [exact L|exact P| |].
  - intros ->. apply ref_b; [exact L|lia|]. intros mem0 L0 V0 F0. apply ref_rem; [exact L0|exact P|]. intros K. apply ref_b; [exact L0|lia|]. intros mem1 L1 V1 F1.
    rewrite (bind_ok_r (at_ofs m pos n)). apply ref_src2; [exact L1|exact B|]. intros l Bl Ll.
    apply ref_end. apply ref_n; [exact L1|exact H|eapply lt_pow; [apply be_get_lt; eassumption|exact HN]|]. intros mem2 L2 V2 F2. apply ref_ret; [exact L2|]. split; [held|]. split; [exact V2|].
    eapply frame_in; [eapply frame_in; [eapply frame_in; [apply frame_refl|exact F0|lia|lia]|exact F1|lia|lia]|exact F2|lia|lia].
  - intros ->. split; [exact VP|]. split; [exact V|apply frame_refl].
Qed.
Lemma ref_opt_fsa S m len pos n pa a (c : bool) mem : lenN mem = S -> bytes_ok m -> pos <= len -> pa + 1 <= a -> a + SA <= S -> n = 4 \/ n = 16 -> vb pa mem = false -> vs a mem = SaUnspec ->
  ref S (opt_part c pos n (_ <~ remaining len pos n ;; _ <~ st_bool pa true ;; x <~ src m pos n ;; st_sa sa_img a x)) mem
    (if c then x <- take m len pos n ;; Ok (sa_from_octets x, pos + n) else Ok (SaUnspec, pos))
    (fun mem' p y => p = snd y /\ p <= len /\ vb pa mem' = c /\ vs a mem' = fst y /\ frame S pa (a + SA - pa) mem mem').
Proof.
  intros L B P HA H HN VP V. apply (ref_opt S m len pos n c _ sa_from_octets SaUnspec mem (fun mem' x => vb pa mem' = c /\ vs a mem' = x /\ frame S pa (a + SA - pa) mem mem')); [exact L|exact P| |].
  - intros ->. apply ref_rem; [exact L|exact P|]. intros K. apply ref_b; [exact L|lia|]. intros mem1 L1 V1 F1. rewrite (bind_ok_r (at_ofs m pos n)). apply ref_src2; [exact L1|exact B|]. intros l Bl Ll.
    apply ref_end. apply ref_s; [exact L1|exact H|exact Bl|lia|]. intros mem2 L2 V2 F2. apply ref_ret; [exact L2|]. split; [held|]. split; [exact V2|].
    eapply frame_in; [eapply frame_in; [apply frame_refl|exact F1|lia|lia]|exact F2|lia|lia].
  - intros ->. split; [exact VP|]. split; [exact V|apply frame_refl].
Qed.
Lemma ref_lift {A C D} S (x : res A) (f : A -> mm C) mem (r : res D) Q a : x = Ok a -> ref S (f a) mem r Q -> ref S (bindm (lift x) f) mem r Q.
Proof. intros -> H. eapply ref_skip; [reflexivity|exact H]. Qed.
Lemma good_ohc : good_any KOhc.
Proof.
  bases. slim. intros m len mem Bm L. cbn [c_dec dec_of c_val ktype] in *. layout 14%nat Y. layout 0%nat A. rewrite B_bool, B_8, B_16, B_32 in Y. rewrite B_bool in A. unfold c_ohc, dec_ohc, v_addrs. cbv zeta.
  revert Y A L. set (SF := sz te OHC). set (SI := sz te IPA). clearbody SF SI.
  set (od := fo te OHC "desc_bits"). set (otp := fo te OHC "teid_present"). set (ot := fo te OHC "teid"). set (oa := fo te OHC "ip_addr"). set (opp := fo te OHC "port_number_present").
  set (op := fo te OHC "port_number"). set (ocp := fo te OHC "c_tag_present"). set (oc := fo te OHC "c_tag"). set (osp := fo te OHC "s_tag_present"). set (os := fo te OHC "s_tag").
  set (a4p := fo te IPA "v4_present"). set (a4 := fo te IPA "v4"). set (a6p := fo te IPA "v6_present"). set (a6 := fo te IPA "v6").
  clearbody od otp ot oa opp op ocp oc osp os a4p a4 a6p a6. intros Y A L.
  apply all_zero_wr; [exact L|]. clear L mem. intros mem L Z. apply ref_if; [exact L|apply ge_lt|]. intros K. apply N.leb_le in K.
  apply ref_rd; [exact L|exact Bm|]. intros d Bd Ld. apply ref_wr; [exact L|lia|]. rewrite Ld. intros mem1 L1 V1 F1. change (frame SF od 2 mem mem1) in F1.
  eapply ref_skip; [apply rd_get; lia|]. rewrite V1.
  destruct d as [|b1 [|b2 [|b3 d]]]; try discriminate Ld. 2: { exfalso. unfold lenN in Ld. cbn [length] in Ld. lia. }
  unfold oh_bits.
  assert (BG : forall i, i < 8 -> bits_get [b1; b2] i = Ok (negb (N.land b1 (2 ^ (i mod 8)) =? 0))).
  { intros i Hi. unfold bits_get. rewrite (N.div_small i 8) by exact Hi. reflexivity. }
  do 8 (eapply ref_lift; [apply BG; reflexivity|]). rewrite !BG by reflexivity. cbn [bind].
  generalize (negb (N.land b1 (2 ^ (0 mod 8)) =? 0)) (negb (N.land b1 (2 ^ (1 mod 8)) =? 0)) (negb (N.land b1 (2 ^ (2 mod 8)) =? 0)) (negb (N.land b1 (2 ^ (3 mod 8)) =? 0))
    (negb (N.land b1 (2 ^ (4 mod 8)) =? 0)) (negb (N.land b1 (2 ^ (5 mod 8)) =? 0)) (negb (N.land b1 (2 ^ (6 mod 8)) =? 0)) (negb (N.land b1 (2 ^ (7 mod 8)) =? 0)).
  intros gtp4 gtp6 udp4 udp6 ip4 ip6 ctag stag. generalize (gtp4 || gtp6) (gtp4 || udp4 || ip4) (gtp6 || udp6 || ip6) (udp4 || udp6). intros c1 c2 c3 c4. clear BG gtp4 gtp6 udp4 udp6 ip4 ip6.
  eapply ref_bind; [apply ref_opt_fn; [exact L1|exact Bm|exact K|lia|rewrite B_32; lia|lia|held|held]|].
  intros mem2 p [t p2] L2 _ (-> & P2 & W2 & V2 & F2). cbn [fst snd] in *. rewrite B_32 in F2.
  unfold dec_addrs. rewrite bind_assoc. eapply ref_bind; [apply ref_opt_fsa; [exact L2|exact Bm|exact P2|lia|lia|auto|held|held]|].
  intros mem3 p [s4 p3] L3 _ (-> & P3 & W3 & V3 & F3). cbn [fst snd] in *. rewrite bind_assoc.
  eapply ref_bind; [apply ref_opt_fsa; [exact L3|exact Bm|exact P3|lia|lia|auto|held|held]|].
  intros mem4 p [s6 p4] L4 _ (-> & P4 & W4 & V4 & F4). cbn [fst snd bind] in *.
  eapply ref_bind; [apply ref_opt_fn; [exact L4|exact Bm|exact P4|lia|rewrite B_16; lia|lia|held|held]|].
  intros mem5 p [po p5] L5 _ (-> & P5 & W5 & V5 & F5). cbn [fst snd] in *. rewrite B_16 in F5.
  eapply ref_bind; [apply ref_opt_ftag; [exact L5|exact Bm|exact P5|lia|rewrite B_32; lia|lia|held|held]|].
  intros mem6 p [ct p6] L6 _ (-> & P6 & W6 & V6 & F6). cbn [fst snd] in *. rewrite B_32 in F6.
  eapply ref_bind; [apply ref_opt_ftag; [exact L6|exact Bm|exact P6|lia|rewrite B_32; lia|lia|held|held]|].
  intros mem7 p [st p7] L7 _ (-> & P7 & W7 & V7 & F7). cbn [fst snd] in *. rewrite B_32 in F7. apply ref_ret; [exact L7|].
  f_equal. f_equal; try held. f_equal; held.
Qed.

(* ---------------------------------------------------------------- decoders that do not reset their struct: any old contents *)
Lemma ref_opt_sa_old S m len pos n a (c : bool) chk mem : lenN mem = S -> bytes_ok m -> pos <= len -> a + SA <= S -> n = 4 \/ n = 16 -> chk = remaining len pos n ->
  ref S (opt_part c pos n (_ <~ chk ;; x <~ src m pos n ;; st_sa sa_img a x)) mem
    (if c then x <- take m len pos n ;; Ok (sa_from_octets x, pos + n) else Ok (SaUnspec, pos))
    (fun mem' p y => p = snd y /\ p <= len /\ (if c then vs a mem' else SaUnspec) = fst y /\ frame S a SA mem mem').
Proof.
  intros L B P H N4 ->. apply (ref_opt S m len pos n c _ sa_from_octets SaUnspec mem (fun mem' x => (if c then vs a mem' else SaUnspec) = x /\ frame S a SA mem mem')); [exact L|exact P| |].
  - intros ->. rewrite (bind_ok_r (take m len pos n)). apply ref_take2; [exact L|exact P|exact B|]. intros l K Bl Ll.
    apply ref_end. apply ref_s; [exact L|exact H|exact Bl|lia|]. intros mem' L' V' F. apply ref_ret; [exact L'|auto].
  - intros ->. split; [reflexivity|apply frame_refl].
Qed.
Lemma ref_opt_num_old S m len pos n t a (c : bool) mem : lenN mem = S -> bytes_ok m -> pos <= len -> a + sz te t <= S -> n <= sz te t ->
  ref S (opt_part c pos n (_ <~ remaining len pos n ;; x <~ src m pos n ;; st_num te be t a (be_get x))) mem (dec_opt m len pos n c)
    (fun mem' p y => p = snd y /\ p <= len /\ (if c then vn t a mem' else 0) = fst y /\ frame S a (sz te t) mem mem').
Proof.
  intros L B P H HN. apply (ref_opt S m len pos n c _ be_get 0 mem (fun mem' x => (if c then vn t a mem' else 0) = x /\ frame S a (sz te t) mem mem')); [exact L|exact P| |].
  - intros ->. rewrite (bind_ok_r (take m len pos n)). apply ref_take2; [exact L|exact P|exact B|]. intros l K Bl Ll.
    apply ref_end. apply ref_n; [exact L|exact H|eapply lt_pow; [apply be_get_lt; eassumption|exact HN]|]. intros mem' L' V' F. apply ref_ret; [exact L'|auto].
  - intros ->. split; [reflexivity|apply frame_refl].
Qed.
Lemma ref_addrs_old {C D} S m len pos a4p a4 a6p a6 base size v4 v6 (chk : N -> N -> mm unit) (K : N -> mm C) mem (g : ip_addrs * N -> res D) Q :
  lenN mem = S -> bytes_ok m -> pos <= len -> (forall p n, p <= len -> chk p n = remaining len p n) ->
  base <= a4p -> a4p + 1 <= a4 -> a4 + SA <= a6p -> a6p + 1 <= a6 -> a6 + SA <= base + size -> base + size <= S ->
  vb a4p mem = v4 -> vb a6p mem = v6 ->
  (forall mem' x p, lenN mem' = S -> p <= len -> present_addrs (mkAddrs (vb a4p mem') (vs a4 mem') (vb a6p mem') (vs a6 mem')) = x -> frame S base size mem mem' -> ref S (K p) mem' (g (x, p)) Q) ->
  ref S (c4 <~ ld_bool a4p ;; p <~ opt_part c4 pos 4 (_ <~ chk pos 4 ;; x <~ src m pos 4 ;; st_sa sa_img a4 x) ;;
         c6 <~ ld_bool a6p ;; q <~ opt_part c6 p 16 (_ <~ chk p 16 ;; x <~ src m p 16 ;; st_sa sa_img a6 x) ;; K q) mem
    (bind (dec_addrs m len pos v4 v6) g) Q.
Proof.
  intros L B P HC H1 H2 H3 H4 H5 H6 W1 W3 HK.
  unfold dec_addrs. rewrite bind_assoc. apply ref_ldb; [exact L|lia|]. rewrite W1. eapply ref_bind; [apply ref_opt_sa_old; [exact L|exact B|exact P|lia|auto|apply HC; exact P]|].
  intros mem1 p [s4 p'] L1 _ (-> & Q1 & V1 & F1). cbn [fst snd] in *. rewrite bind_assoc. apply ref_ldb; [exact L1|lia|].
  assert (W3' : vb a6p mem1 = v6) by held. rewrite W3'. eapply ref_bind; [apply ref_opt_sa_old; [exact L1|exact B|exact Q1|lia|auto|apply HC; exact Q1]|].
  intros mem2 q [s6 q'] L2 _ (-> & Q2 & V2 & F2). cbn [fst snd] in *. cbn [bind]. apply HK; [exact L2|exact Q2| |].
  - unfold present_addrs. cbn [ia_v4p ia_v4 ia_v6p ia_v6]. assert (X1 : vb a4p mem2 = v4) by held. assert (X2 : vb a6p mem2 = v6) by held. assert (X3 : vs a4 mem2 = vs a4 mem1) by (rewrite (fr_s _ _ _ _ _ a4 F2) by lia; reflexivity).
    rewrite X1, X2, X3, V1, V2. reflexivity.
  - eapply frame_in; [eapply frame_in; [apply frame_refl|exact F1|lia|lia]|exact F2|lia|lia].
Qed.
Definition good_present (k : kind) : Prop := forall m len mem, bytes_ok m -> lenN mem = sz te (ktype k) ->
  ref (sz te (ktype k)) (c_dec te be sa_img k m len) mem (dec_of k m len) (fun mem' _ v => present_only (c_val te be sa_rd k mem') = v).
Lemma old_fseid : good_present KFSeid.
Proof.
  bases. slim. intros m len mem Bm L. cbn [c_dec dec_of c_val ktype present_only fs_seid fs_addr] in *. layout 5%nat Y. layout 0%nat A. rewrite B_64 in Y. rewrite B_bool in A. unfold c_f_seid, dec_f_seid, v_addrs. cbv zeta.
  revert Y A. set (SF := sz te F_SEID) in *. clearbody SF. set (SI := sz te IPA). clearbody SI. atoms. intros Y A.
  apply ref_if; [exact L|apply ge_lt|]. intros K. apply N.leb_le in K. apply ref_rdbe; [exact L|exact Bm|]. intros l Bl Ll.
  apply ref_b; [exact L|lia|]. intros mem1 L1 V1 F1. apply ref_b; [exact L1|lia|]. intros mem2 L2 V2 F2.
  apply ref_src2; [exact L2|exact Bm|]. intros s Bs Ls. apply ref_n; [exact L2|rewrite B_64; lia|rewrite B_64; apply be_get_lt; assumption|]. rewrite B_64. intros mem3 L3 V3 F3.
  apply (ref_addrs_old _ m len 9 _ _ _ _ o0 SI _ _ (fun p n => ensure (p + n <=? len) EINVAL)); try lia; try assumption.
  - intros p n. apply ensure_remaining.
  - held.
  - held.
  - intros mem4 x p L4 _ H4 F4. apply ref_ret; [exact L4|]. cbn [fst]. rewrite H4. assert (V : vn "uint64_t" o mem4 = be_get s) by held. rewrite V. reflexivity.
Qed.
Lemma old_ueip : good_present KUeIp.
Proof.
  bases. slim. intros m len mem Bm L. cbn [c_dec dec_of c_val ktype present_only ue_chv6 ue_chv4 ue_dest ue_addr ue_delegp ue_deleg ue_plenp ue_plen] in *. layout 10%nat Y. layout 0%nat A. rewrite B_bool in Y, A. rewrite B_8 in Y.
  unfold c_ue_ip, dec_ue_ip, v_addrs. cbv zeta.
  revert Y A. set (SF := sz te UE_IP) in *. clearbody SF. set (SI := sz te IPA). clearbody SI. atoms. intros Y A.
  apply ref_take2; [exact L|lia|exact Bm|]. intros l K Bl Ll.
  apply ref_b; [exact L|lia|]. intros mem1 L1 V1 F1. apply ref_b; [exact L1|lia|]. intros mem2 L2 V2 F2. apply ref_b; [exact L2|lia|]. intros mem3 L3 V3 F3.
  apply ref_b; [exact L3|lia|]. intros mem4 L4 V4 F4. apply ref_b; [exact L4|lia|]. intros mem5 L5 V5 F5. apply ref_b; [exact L5|lia|]. intros mem6 L6 V6 F6.
  apply ref_b; [exact L6|lia|]. intros mem7 L7 V7 F7.
  apply (ref_addrs_old _ m len 1 _ _ _ _ o2 SI _ _ (remaining len)); try lia; try assumption.
  - reflexivity.
  - held.
  - intros mem8 x p L8 P8 H8 F8. cbn [fst snd].
    assert (C1 : vb o mem8 = flag (be_get l) 32) by held. assert (C2 : vb o0 mem8 = flag (be_get l) 16) by held. assert (C3 : vb o1 mem8 = flag (be_get l) 4) by held.
    assert (C4 : vb o3 mem8 = flag (be_get l) 8) by held. assert (C5 : vb o5 mem8 = flag (be_get l) 64) by held.
    clear V1 F1 V2 F2 V3 F3 V4 F4 V5 F5 V6 F6 V7 F7 F8.
    apply ref_ldb; [exact L8|lia|]. rewrite C4. eapply ref_bind; [apply ref_opt_num_old; [exact L8|exact Bm|exact P8|rewrite B_8; lia|lia]|].
    intros mem9 q [d q'] L9 _ (-> & P9 & V9 & F9). cbn [fst snd] in *. rewrite B_8 in F9.
    apply ref_ldb; [exact L9|lia|]. assert (C8 : vb o5 mem9 = flag (be_get l) 64) by held. rewrite C8.
    eapply ref_bind; [apply ref_opt_num_old; [exact L9|exact Bm|exact P9|rewrite B_8; lia|lia]|].
    intros mem10 q [e q''] L10 _ (-> & P10 & V10 & F10). cbn [fst snd] in *. rewrite B_8 in F10. apply ref_ret; [exact L10|].
    assert (D1 : vb o3 mem10 = flag (be_get l) 8) by held. assert (D2 : vb o5 mem10 = flag (be_get l) 64) by held.
    assert (D3 : vn "uint8_t" o4 mem10 = vn "uint8_t" o4 mem9) by (rewrite (fr_n _ _ _ _ _ "uint8_t" o4 F10) by lia; reflexivity).
    rewrite D1, D2, D3, V9, V10. f_equal. f_equal; try held.
    rewrite <- H8. unfold present_addrs. cbn [ia_v4p ia_v4 ia_v6p ia_v6].
    assert (E1 : vb (o2 + o7) mem10 = vb (o2 + o7) mem8) by held. assert (E2 : vb (o2 + o9) mem10 = vb (o2 + o9) mem8) by held.
    assert (E3 : vs (o2 + o8) mem10 = vs (o2 + o8) mem8) by held. assert (E4 : vs (o2 + o10) mem10 = vs (o2 + o10) mem8) by held. rewrite E1, E2, E3, E4. reflexivity.
Qed.
(* Outer Header Removal: a value of one octet leaves the members about the extension header as they were *)
Lemma old_ohr m len mem : bytes_ok m -> lenN mem = sz te OHR ->
  ref (sz te OHR) (c_dec te be sa_img KOhr m len) mem (dec_of KOhr m len)
    (fun mem' _ v => match c_val te be sa_rd KOhr mem, c_val te be sa_rd KOhr mem', v with
       | IvOhr x, IvOhr y, IvOhr w => or_desc y = or_desc w
           /\ if 1 <? len then or_extp y = true /\ or_ext y = or_ext w else or_extp y = or_extp x /\ or_ext y = or_ext x
       | _, _, _ => False
       end).
Proof.
  bases. intros Bm L. cbn [c_dec dec_of c_val] in *. layout 15%nat Y. rewrite B_bool, B_8 in Y. unfold c_ohr, dec_ohr.
  set (E := "enum osmo_pfcp_outer_header_removal_desc") in *. clearbody E. clear B_cause B_iei B_3gpp B_src B_dst B_nidt.
  revert Y. set (SF := sz te OHR) in *. clearbody SF. atoms. intros Y.
  apply ref_if; [exact L|apply ge_lt|]. intros _. apply ref_rdbe; [exact L|exact Bm|]. intros l Bl Ll.
  apply ref_n; [exact L|lia|eapply lt_pow; [apply be_get_lt; eassumption|exact B_ohr]|]. intros mem1 L1 V1 F1.
  destruct (1 <? len).
  - apply ref_b; [exact L1|lia|]. intros mem2 L2 V2 F2. apply ref_src2; [exact L2|exact Bm|]. intros b Bb Lb. apply ref_end. apply ref_wr; [exact L2|lia|]. rewrite Lb. intros mem3 L3 V3 F3.
    change (frame SF o1 1 mem2 mem3) in F3. apply ref_ret; [exact L3|]. cbn [or_desc or_extp or_ext]. split; [held|]. split; held.
  - apply ref_ret; [exact L1|]. cbn [or_desc or_extp or_ext]. split; [held|]. split; held.
Qed.

Lemma any_good k : good_any k -> good k.
Proof. intros H m len mem B L _. exact (H m len mem B L). Qed.
Definition resets (k : kind) : bool := match k with KFSeid | KOhr | KUeIp => false | _ => true end.
Lemma all_any k : resets k = true -> good_any k.
Proof.
  destruct k; intros H; try discriminate H; [exact good_cause|exact good_iei|exact good_8|exact good_16|exact good_32|exact good_3gpp|exact good_src|exact good_dst|exact good_node|exact good_up|exact good_cp
  |exact good_fteid|exact good_apply|exact good_inst|exact good_ohc|exact good_rules].
Qed.
Lemma all_good k : good k.
Proof. destruct (resets k) eqn:E; [exact (any_good k (all_any k E))|]. destruct k; try discriminate E; [exact good_fseid|exact good_ohr|exact good_ueip]. Qed.
End Sim.
