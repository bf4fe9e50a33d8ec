(* MemTest.v -- struct decoded_msg of tests/libosmo-gtlv/gtlv_dec_enc_test.c in memory, as laid out by the x86-64 ABI: an instance
   of MemModel.v. "int" members are represented as unsigned numbers: encoding a negative int is not modelled. *)
From Verif Require Import Base BaseProofs GtlvModel GtlvSpec DecEncModel DecEncSpec DecCharProofs StrModel CStr TestTables MemModel MemSpec MemProofs MemEncProofs.
Local Open Scope N_scope.

Lemma of_codec_dec {V K} (la : K -> leaf V) ls (cd : K -> codec V) k : codec_ok (cd k) (la k) ->
  dec_ok (fun k => of_codec (cd k) (la k) (ls k)) la (fun k => cd_get (cd k)) k.
Proof.
  unfold codec_ok, dec_ok, of_codec. cbn [ml_dec]. destruct (lf_dec (la k)) as [d|]; cbn [option_map]; [|easy].
  intros H old m len HL HZ HB. specialize (H old m len). cbn [ml_size] in *. destruct (d m len) as [v|e|u]; [|auto|auto].
  destruct (H v HL HZ HB eq_refl). auto.
Qed.
Lemma of_codec_enc {V K} (la : K -> leaf V) ls (cd : K -> codec V) k :
  enc_ok (fun k => of_codec (cd k) (la k) (ls k)) la (fun k => cd_get (cd k)) k.
Proof. unfold enc_ok, of_codec. cbn [ml_enc]. destruct (lf_enc (la k)); cbn [option_map]; auto. Qed.
Lemma of_codec_str {V K} (la : K -> leaf V) ls (cd : K -> codec V) k :
  str_ok (fun k => of_codec (cd k) (la k) (ls k)) ls (fun k => cd_get (cd k)) k.
Proof. unfold str_ok, of_codec. cbn [ml_str]. destruct (ls k); cbn [option_map]; auto. Qed.

(* the member types int, struct bar, struct baz, struct repeat; gtlv_dec_enc_test.c:55-81 *)
Inductive tkind := KU16 | KBar | KBaz | KRep.
Definition t_leaf (k : tkind) : leaf tv := match k with KU16 => l_u16 | KBar => l_bar | KBaz => l_baz | KRep => l_rep end.
Section Host.
Variable be : bool.
(* the bytes before the first NUL *)
Fixpoint c_str (l : list N) : list N := match l with [] => [] | b :: l' => if b =? 0 then [] else b :: c_str l' end.
Definition put_at (ofs : N) (bs old : list N) : list N := takeN ofs old ++ bs ++ dropN (ofs + lenN bs) old.
Definition get_at (ofs n : N) (l : list N) : list N := takeN n (dropN ofs l).
Definition t_codec (k : tkind) : codec tv :=
  match k with
  | KU16 => mkCodec 4 (fun old v => match v with TInt x => u2y be x | _ => old end) (fun b => TInt (y2u be b))
  | KBar => mkCodec 23 (fun old v => match v with TStr s => put_at 0 (s ++ [0]) old | _ => old end) (fun b => TStr (c_str b))
  | KBaz => mkCodec 8 (fun old v => match v with TBaz x f => put_at 4 (b2y f) (put_at 0 (u2y be x) old) | _ => old end)
                    (fun b => TBaz (y2u be (get_at 0 4 b)) (y2b (get_at 4 1 b)))
  | KRep => mkCodec 12 (fun old v => match v with TRep x f e => put_at 8 (u2y be e) (put_at 4 (b2y f) (put_at 0 (u2y be x) old)) | _ => old end)
                    (fun b => TRep (y2u be (get_at 0 4 b)) (y2b (get_at 4 1 b)) (y2u be (get_at 8 4 b)))
  end.
(* "%d" etc.: the texts of numbers only; enc_to_str_func of the other members is not given *)
Definition t_str (k : tkind) : option (tv -> strfn) :=
  match k with KU16 => Some (fun v => snprintf (match v with TInt x => pf_u x | _ => [] end)) | _ => None end.
Definition t_mleaf (k : tkind) : mleaf := of_codec (t_codec k) (t_leaf k) (t_str k).
Definition t_ld (k : tkind) : list N -> tv := cd_get (t_codec k).
End Host.

(* nested_inner_msg_ies and msg_ie_coding, gtlv_dec_enc_test.c:212-311, with offsets *)
Definition t_nested : list (mcoding tkind) :=
  [ MLeaf (mkMHead (hd_m 1) 0 0 0 0) KU16; MLeaf (mkMHead (hd_m 2) 4 0 0 0) KBar; MLeaf (mkMHead (hd_m 3) 28 0 0 0) KBaz ].
Definition t_msg : list (mcoding tkind) :=
  [ MLeaf (mkMHead (hd_m 1) 0 0 0 0) KU16; MLeaf (mkMHead (hd_m 2) 4 0 0 0) KBar; MLeaf (mkMHead (hd_o 3) 28 0 27 0) KBaz;
    MLeaf (mkMHead (hd_multi 4 3 0) 40 4 0 36) KU16; MLeaf (mkMHead (hd_multi 4 2 0) 56 4 0 52) KU16; MLeaf (mkMHead (hd_o 4) 68 0 64 0) KU16;
    MLeaf (mkMHead (hd_multi 5 32 0) 76 12 0 72) KRep; MNest (mkMHead (hd_o 6) 464 0 460 0) 36 None OrdSame t_nested ].

Lemma t_erase : map (erase t_leaf) t_msg = msg_ie_coding.
Proof. reflexivity. Qed.

(* decidable layout *)
Definition apart_b (r s : region) : bool := (fst r + snd r <=? fst s) || (fst s + snd s <=? fst r).
Fixpoint pairs_b {A} (f : A -> A -> bool) (l : list A) : bool := match l with [] => true | x :: l' => forallb (f x) l' && pairs_b f l' end.
Section Dec.
Context {K : Type}.
Variable lk : K -> mleaf.
Definition table_laid_b (sz : N) (ies : list (mcoding K)) : bool :=
  (0 <? sz)
  && forallb (fun d => forallb (fun r => fst r + snd r <=? sz) (regions lk d)) ies
  && forallb (fun d => pairs_b apart_b (regions lk d)) ies
  && pairs_b (fun d e => forallb (fun r => forallb (apart_b r) (regions lk e)) (regions lk d)) ies
  && forallb (fun d => match h_multi (mh_h (mhd d)) with Some _ => msize lk d <=? mh_pitch (mhd d) | None => true end) ies.
Fixpoint laid_b (cd : mcoding K) : bool :=
  match cd with MLeaf _ k => 0 <? ml_size (lk k) | MNest _ sz _ _ ies => table_laid_b sz ies && forallb laid_b ies end.
Lemma apart_b_iff r s : apart_b r s = true <-> apart r s.
Proof. unfold apart_b, apart. rewrite orb_true_iff, !N.leb_le. reflexivity. Qed.
Lemma forallb_Forall {A} (f : A -> bool) (P : A -> Prop) l : (forall x, f x = true -> P x) -> forallb f l = true -> Forall P l.
Proof. intros H. rewrite forallb_forall, Forall_forall. auto. Qed.
Lemma pairs_b_ok {A} (f : A -> A -> bool) (R : A -> A -> Prop) l : (forall x y, f x y = true -> R x y) -> pairs_b f l = true -> ForallOrdPairs R l.
Proof.
  intros H. induction l as [|x l IH]; intros E; [constructor|]. cbn [pairs_b] in E. apply andb_true_iff in E as [E1 E2]. constructor; [|auto].
  revert E1. apply forallb_Forall. auto.
Qed.
Lemma table_laid_ok sz ies : table_laid_b sz ies = true -> table_laid lk sz ies.
Proof.
  unfold table_laid_b. rewrite !andb_true_iff. intros ((((H1 & H2) & H3) & H4) & H5). split; [apply N.ltb_lt; exact H1|]. split; [|split; [|split]].
  - revert H2. apply forallb_Forall. intros d. apply forallb_Forall. intros r Hr. apply N.leb_le. exact Hr.
  - revert H3. apply forallb_Forall. intros d. apply pairs_b_ok. intros r s. apply apart_b_iff.
  - revert H4. apply pairs_b_ok. intros d e. apply forallb_Forall. intros r. apply forallb_Forall. intros s. apply apart_b_iff.
  - revert H5. apply forallb_Forall. intros d. destruct (h_multi (mh_h (mhd d))); [apply N.leb_le|easy].
Qed.
Lemma laid_ok d : laid_b d = true -> laid lk d.
Proof.
  induction d as [h k|h sz nc o ies IH] using mcoding_ind'; cbn [laid_b].
  - apply N.ltb_lt.
  - rewrite andb_true_iff. intros [H1 H2]. apply laid_nest. split; [apply table_laid_ok; exact H1|].
    rewrite forallb_forall in H2. rewrite Forall_forall in *. auto.
Qed.
Lemma layout_b_ok sz ies : table_laid_b sz ies && forallb laid_b ies = true -> layout_ok lk sz ies.
Proof.
  rewrite andb_true_iff. intros [H1 H2]. split; [apply table_laid_ok; exact H1|]. revert H2. apply forallb_Forall. exact laid_ok.
Qed.
End Dec.

Lemma t_layout be : layout_ok (t_mleaf be) 500 t_msg.
Proof. apply layout_b_ok. destruct be; vm_compute; reflexivity. Qed.

(* ---------------------------------------------------------------- the leaf functions *)
Lemma get_put_at ofs bs old n : ofs + lenN bs <= lenN old -> n = lenN bs -> get_at ofs n (put_at ofs bs old) = bs.
Proof.
  intros H ->. unfold get_at, put_at. rewrite <- (lenN_takeN ofs old) at 1 by lia. rewrite dropN_app, takeN_app. reflexivity.
Qed.
Lemma put_at_len ofs bs old : ofs + lenN bs <= lenN old -> lenN (put_at ofs bs old) = lenN old.
Proof. intros H. unfold put_at. rewrite !lenN_app, lenN_dropN, lenN_takeN by lia. lia. Qed.
Lemma get_other ofs bs old a n : ofs + lenN bs <= lenN old -> a + n <= lenN old -> a + n <= ofs \/ ofs + lenN bs <= a ->
  get_at a n (put_at ofs bs old) = get_at a n old.
Proof.
  intros H H1 H2. destruct (wr_ok ofs bs old H) as (m' & Hw & [HL HS] & _). unfold wr in Hw. destruct (ofs + lenN bs <=? lenN old); [|discriminate].
  injection Hw as <-. specialize (HS a n). fold (put_at ofs bs old) in HS. unfold peek in HS. rewrite put_at_len in HS by exact H.
  destruct (N.leb_spec (a + n) (lenN old)); [|lia].
  assert (HF : Forall (apart (a, n)) [(ofs, lenN bs)]) by (constructor; [unfold apart; cbn [fst snd]; lia|constructor]).
  specialize (HS HF). injection HS as HS. exact HS.
Qed.
Lemma rd_be_bound w m x : bytes_ok m -> rd_be w m = Ok x -> x < 256 ^ w.
Proof.
  unfold rd_be. intros HB H. destruct (rdN w m) as [l|e|u] eqn:E; try discriminate. cbn [bind] in H. injection H as <-.
  unfold rdN in E. destruct (N.leb_spec w (lenN m)); [|discriminate]. injection E as <-.
  pose proof (be_get_bound (takeN w m) (bytes_ok_takeN _ _ HB)) as HH. rewrite lenN_takeN in HH by lia. exact HH.
Qed.
Lemma c_str_app s l : Forall (fun b => b <> 0) s -> c_str (s ++ 0 :: l) = s.
Proof. induction 1 as [|b s Hb Hs IH]; [reflexivity|]. cbn [app c_str]. destruct (N.eqb_spec b 0); [easy|]. rewrite IH. reflexivity. Qed.
Lemma strlen_nonzero m n : c_strlen m = Ok n -> Forall (fun b => b <> 0) (takeN n m).
Proof.
  revert n. induction m as [|b m IH]; intros n H; [discriminate|]. cbn [c_strlen] in H. destruct (N.eqb_spec b 0); [injection H as <-; constructor|].
  destruct (c_strlen m) as [k|e|u]; try discriminate. injection H as <-. replace (takeN (k + 1) (b :: m)) with (b :: takeN k m); [constructor; auto|].
  unfold takeN. replace (N.to_nat (k + 1)) with (S (N.to_nat k)) by lia. reflexivity.
Qed.
Lemma strlcpy_spec m n s : 1 <= n -> osmo_strlcpy m n = Ok s -> lenN s <= n - 1 /\ Forall (fun b => b <> 0) s.
Proof.
  unfold osmo_strlcpy. intros Hn H. destruct (c_strlen m) as [k|e|u] eqn:E; try discriminate. injection H as <-. split.
  - unfold lenN, takeN. rewrite firstn_length. lia.
  - pose proof (strlen_nonzero _ _ E) as HF. rewrite <- (takeN_takeN _ _ m (N.le_min_r (n - 1) k)). apply Forall_takeN. exact HF.
Qed.

Lemma t_codec_ok be k : codec_ok (t_codec be k) (t_leaf k).
Proof.
  destruct k; cbn [t_leaf t_codec codec_ok lf_dec l_u16 l_bar l_baz l_rep cd_size cd_put cd_get]; intros old m len v HL HZ HB H.
  - unfold dec_u16 in H. dif_in H E; [discriminate|]. destruct (rd_be 2 m) as [x|e|u] eqn:Ex; try discriminate. injection H as <-.
    apply rd_be_bound in Ex; [|exact HB]. change (256 ^ 2) with 65536 in Ex. split; [apply u2y_len|]. rewrite y2u_u2y by lia. reflexivity.
  - unfold dec_bar in H. dif_in H E; [discriminate|]. destruct (osmo_strlcpy m _) as [s|e|u] eqn:Es; try discriminate. injection H as <-.
    apply strlcpy_spec in Es as [Hs1 Hs2]; [|lia].
    assert (H0 : 0 + lenN (s ++ [0]) <= lenN old) by (rewrite lenN_app; change (lenN [0]) with 1; lia).
    split; [rewrite put_at_len by exact H0; exact HL|]. unfold put_at. change (takeN 0 old) with (@nil N). cbn [app].
    rewrite <- app_assoc. cbn [app]. rewrite c_str_app by exact Hs2. reflexivity.
  - unfold dec_baz in H. dif_in H E; [discriminate|]. destruct (rd_be 2 m) as [x|e|u] eqn:Ex; try discriminate. cbn [bind] in H. injection H as <-.
    apply rd_be_bound in Ex; [|exact HB]. change (256 ^ 2) with 65536 in Ex.
    assert (L1 : lenN (put_at 0 (u2y be (x mod 32768)) old) = 8) by (rewrite put_at_len; rewrite ?u2y_len; lia).
    split; [rewrite put_at_len; change (lenN (b2y _)) with 1; lia|]. f_equal.
    + rewrite get_other by (change (lenN (b2y _)) with 1; lia). rewrite get_put_at by (rewrite ?u2y_len; lia). apply y2u_u2y. lia.
    + rewrite get_put_at by (change (lenN (b2y _)) with 1; lia). apply y2b_b2y.
  - unfold dec_rep in H. dif_in H E; [discriminate|]. destruct (rd_be 2 m) as [x|e|u] eqn:Ex; try discriminate. cbn [bind] in H.
    destruct (rd_be 1 (dropN 2 m)) as [y|e|u] eqn:Ey; try discriminate. cbn [bind] in H. injection H as <-.
    apply rd_be_bound in Ex; [|exact HB]. apply rd_be_bound in Ey; [|apply bytes_ok_dropN; exact HB]. change (256 ^ 2) with 65536 in Ex. change (256 ^ 1) with 256 in Ey.
    set (o1 := put_at 0 (u2y be x) old). assert (L1 : lenN o1 = 12) by (unfold o1; rewrite put_at_len; rewrite ?u2y_len; lia).
    set (o2 := put_at 4 (b2y (128 <=? y)) o1). assert (L2 : lenN o2 = 12) by (unfold o2; rewrite put_at_len; change (lenN (b2y _)) with 1; lia).
    split; [rewrite put_at_len; rewrite ?u2y_len; lia|]. f_equal.
    + rewrite get_other by (rewrite ?u2y_len; lia). unfold o2. rewrite get_other by (change (lenN (b2y _)) with 1; lia).
      unfold o1. rewrite get_put_at by (rewrite ?u2y_len; lia). apply y2u_u2y. lia.
    + rewrite get_other by (rewrite ?u2y_len; lia). unfold o2. rewrite get_put_at by (change (lenN (b2y _)) with 1; lia). apply y2b_b2y.
    + rewrite get_put_at by (rewrite ?u2y_len; lia). apply y2u_u2y. lia.
Qed.
Lemma t_dec_ok be k : dec_ok (t_mleaf be) t_leaf (t_ld be) k.
Proof. apply of_codec_dec. apply t_codec_ok. Qed.
Lemma t_enc_ok be k : enc_ok (t_mleaf be) t_leaf (t_ld be) k.
Proof. apply (of_codec_enc t_leaf t_str (t_codec be)). Qed.
Lemma t_str_ok be k : str_ok (t_mleaf be) t_str (t_ld be) k.
Proof. apply (of_codec_str t_leaf t_str (t_codec be)). Qed.

(* ---------------------------------------------------------------- examples *)
Definition t_zero : list N := repeat 0 504.
(* TLVs of gtlv_dec_enc_test.c: foo = 23, bar = "ab", repeat_int = {1, 2}, repeat_struct = {(3, true, 1)}, nest = {foo 5, bar "", baz (6, true)} *)
Definition t_wire : list N :=
  [1; 2; 0; 23; 2; 2; 97; 98; 4; 2; 0; 1; 4; 2; 0; 2; 5; 3; 0; 3; 129; 6; 10; 1; 2; 0; 5; 2; 0; 3; 2; 128; 6].
Definition t_slots : list (slot tv) :=
  [ [VLeaf (TInt 23)]; [VLeaf (TStr [97; 98])]; []; [VLeaf (TInt 1); VLeaf (TInt 2)]; []; []; [VLeaf (TRep 3 true 1)];
    [VStruct [ [VLeaf (TInt 5)]; [VLeaf (TStr [])]; [VLeaf (TBaz 6 true)] ]] ].
Definition t_decoded (be : bool) : list N := fst (mgtlvs_decode (t_mleaf be) be 504 t8l8v false 2 (Some t_msg) (t_wire ++ [0]) (lenN t_wire) t_zero).

Fixpoint zeros (l : list N) : bool := match l with [] => true | b :: l' => (b =? 0) && zeros l' end.
Lemma zeros_ok l : zeros l = true -> Forall (fun b => b = 0) l.
Proof. induction l as [|b l IH]; [constructor|]. cbn [zeros]. rewrite andb_true_iff. intros [H1 H2]. constructor; [apply N.eqb_eq; exact H1|auto]. Qed.
Lemma t_zeroed : exists l, bytes_at 2 500 t_zero l /\ Forall (fun b => b = 0) l.
Proof.
  exists (repeat 0 500). split; [|apply zeros_ok; vm_compute; reflexivity]. exists [0; 0], [0; 0]. vm_compute. auto.
Qed.
Lemma t_wire_bytes : bytes_ok (t_wire ++ [0]).
Proof. repeat constructor. Qed.
Lemma t_decode_slots : gtlvs_decode t8l8v false (Some msg_ie_coding) (t_wire ++ [0]) (lenN t_wire) = Ok t_slots.
Proof. vm_compute. reflexivity. Qed.
Lemma t_decode_mem be : mgtlvs_decode (t_mleaf be) be 504 t8l8v false 2 (Some t_msg) (t_wire ++ [0]) (lenN t_wire) t_zero = (t_decoded be, Ok tt).
Proof. destruct be; vm_compute; reflexivity. Qed.
Lemma t_held be : struct_held (t_mleaf be) (t_ld be) be false t_msg 2 (t_decoded be) t_slots.
Proof.
  pose proof (decode_refines (t_mleaf be) t_leaf (t_ld be) be 504 eq_refl (t_dec_ok be) 500 t_msg t8l8v false 2 (t_wire ++ [0]) (lenN t_wire) t_zero
    t_wire_bytes (t_layout be) eq_refl) as H.
  specialize (H ltac:(vm_compute; discriminate) t_zeroed). rewrite t_erase, t_decode_slots in H. destruct H as (dm' & E & _ & HS).
  rewrite t_decode_mem in E. injection E as <-. exact HS.
Qed.

Definition r_ies : list (mcoding tkind) := [ MLeaf (mkMHead (hd_multi 4 3 0) 4 4 0 0) KU16 ].
Lemma reused_struct : exists ies m dm dm' dm1,
  layout_ok (t_mleaf false) 20 ies /\ lenN dm = 20
  /\ mgtlvs_decode (t_mleaf false) false 20 t8l8v true 0 (Some ies) m (lenN m) (repeat 0 20) = (dm, Ok tt)
  /\ struct_held (t_mleaf false) (t_ld false) false false ies 0 dm [ [VLeaf (TInt 7)] ]
  /\ mgtlvs_decode (t_mleaf false) false 20 t8l8v true 0 (Some ies) m (lenN m) dm = (dm', Ok tt)
  /\ struct_held (t_mleaf false) (t_ld false) false false ies 0 dm' [ [VLeaf (TInt 7); VLeaf (TInt 7)] ]
  /\ fst (mgtlvs_decode (t_mleaf false) false 20 t8l8v false 0 (Some ies) (m ++ m ++ m) (3 * lenN m) (repeat 0 20)) = dm1
  /\ snd (mgtlvs_decode (t_mleaf false) false 20 t8l8v false 0 (Some ies) m (lenN m) dm1) = Err ENOTSUP.
Proof.
  exists r_ies, [4; 2; 0; 7], [1;0;0;0; 7;0;0;0; 0;0;0;0; 0;0;0;0; 0;0;0;0], [2;0;0;0; 7;0;0;0; 7;0;0;0; 0;0;0;0; 0;0;0;0],
    [3;0;0;0; 7;0;0;0; 7;0;0;0; 7;0;0;0; 0;0;0;0].
  split; [apply layout_b_ok; vm_compute; reflexivity|]. split; [reflexivity|]. split; [vm_compute; reflexivity|].
  assert (HV : forall i m l, peek (0 + 4 + i * 4) 4 m = Ok l -> y2u false l = 7 ->
    val_held (t_mleaf false) (t_ld false) false false (MLeaf (mkMHead (hd_multi 4 3 0) 4 4 0 0) KU16) (0 + 4 + i * 4) m (VLeaf (TInt 7))).
  { intros i m l H E. exists l. split; [apply peek_iff; exact H|]. change (TInt (y2u false l) = TInt 7). rewrite E. reflexivity. }
  split.
  { constructor; [|constructor]. split; [discriminate|]. split; [exists [1; 0; 0; 0]; split; [apply peek_iff; reflexivity|reflexivity]|].
    intros [|[|i]] v Hi Hm; try discriminate. injection Hi as <-. apply (HV 0 _ [7; 0; 0; 0]); reflexivity. }
  split; [vm_compute; reflexivity|]. split.
  { constructor; [|constructor]. split; [discriminate|]. split; [exists [2; 0; 0; 0]; split; [apply peek_iff; reflexivity|reflexivity]|].
    intros [|[|[|i]]] v Hi Hm; try discriminate; injection Hi as <-; [apply (HV 0 _ [7; 0; 0; 0])|apply (HV 1 _ [7; 0; 0; 0])]; reflexivity. }
  split; vm_compute; reflexivity.
Qed.
Definition z_ies : list (mcoding tkind) := [ MLeaf (mkMHead (hd_multi 4 3 0) 4 0 0 0) KU16 ].
Lemma zero_pitch : exists ies m dm,
  mgtlvs_decode (t_mleaf false) false 20 t8l8v false 0 (Some ies) m (lenN m) (repeat 0 20) = (dm, Ok tt)
  /\ gtlvs_decode t8l8v false (Some (map (erase t_leaf) ies)) m (lenN m) = Ok [ [VLeaf (TInt 7); VLeaf (TInt 8)] ]
  /\ ~ struct_held (t_mleaf false) (t_ld false) false false ies 0 dm [ [VLeaf (TInt 7); VLeaf (TInt 8)] ]
  /\ mgtlvs_encode (t_mleaf false) false 20 dm t8l8v 100 0 (Some ies) [] = EErr [] EFAULT.
Proof.
  exists z_ies, [4; 2; 0; 7; 4; 2; 0; 8], [2;0;0;0; 8;0;0;0; 0;0;0;0; 0;0;0;0; 0;0;0;0].
  split; [vm_compute; reflexivity|]. split; [vm_compute; reflexivity|]. split; [|vm_compute; reflexivity].
  intros H. inversion_clear H as [|? ? ? ? H1 _]. destruct H1 as [_ [_ H1]]. specialize (H1 0%nat (VLeaf (TInt 7)) eq_refl eq_refl).
  destruct H1 as (l & Hl & E). apply peek_iff in Hl. vm_compute in Hl. injection Hl as <-. vm_compute in E. discriminate.
Qed.
Lemma t_held_strict be : struct_held (t_mleaf be) (t_ld be) be true t_msg 2 (t_decoded be) t_slots.
Proof.
  apply (strict_struct _ t_leaf); [|apply t_held]. rewrite t_erase.
  apply (gtlvs_decode_counts t8l8v msg_ie_coding (t_wire ++ [0]) (lenN t_wire)); [repeat constructor; discriminate| |exact t_decode_slots].
  split; [vm_compute; discriminate|]. repeat constructor; vm_compute; discriminate.
Qed.
