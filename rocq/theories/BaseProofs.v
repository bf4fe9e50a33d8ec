(* BaseProofs.v -- facts about the vocabulary of Base.v *)
From Verif Require Import Base.

(* case split on the condition of the first [if] of the goal / of a hypothesis *)
Ltac dif H := match goal with |- context [if ?b then _ else _] => destruct b eqn:H end.
Ltac dif_in G H := match type of G with context [if ?b then _ else _] => destruct b eqn:H end.

Lemma lenN_app {A} (a b : list A) : lenN (a ++ b) = lenN a + lenN b.
Proof. unfold lenN; rewrite app_length; lia. Qed.
Lemma lenN_nil {A} : lenN (@nil A) = 0.
Proof. reflexivity. Qed.
Lemma lenN_cons {A} (x : A) l : lenN (x :: l) = 1 + lenN l.
Proof. unfold lenN; cbn [length]; lia. Qed.
Lemma lenN_0 {A} (l : list A) : lenN l = 0 -> l = [].
Proof. destruct l; [reflexivity|rewrite lenN_cons; lia]. Qed.

Lemma dropN_app {A} (a b : list A) : dropN (lenN a) (a ++ b) = b.
Proof.
  unfold dropN, lenN. rewrite Nat2N.id. rewrite skipn_app, skipn_all, Nat.sub_diag. reflexivity.
Qed.
Lemma dropN_app' {A} n (a b : list A) : n = lenN a -> dropN n (a ++ b) = b.
Proof. intros ->; apply dropN_app. Qed.
Lemma takeN_app {A} (a b : list A) : takeN (lenN a) (a ++ b) = a.
Proof.
  unfold takeN, lenN. rewrite Nat2N.id. rewrite firstn_app, firstn_all, Nat.sub_diag. cbn. apply app_nil_r.
Qed.
Lemma takeN_app' {A} n (a b : list A) : n = lenN a -> takeN n (a ++ b) = a.
Proof. intros ->; apply takeN_app. Qed.
Lemma dropN_0 {A} (l : list A) : dropN 0 l = l.
Proof. reflexivity. Qed.
Lemma dropN_dropN {A} a b (l : list A) : dropN a (dropN b l) = dropN (b + a) l.
Proof.
  unfold dropN. rewrite N2Nat.inj_add. generalize (N.to_nat a) as x, (N.to_nat b) as y. clear.
  intros x y. revert l. induction y as [|y IH]; intros l; cbn [skipn plus]; [reflexivity|].
  destruct l as [|h l]; [apply skipn_nil|apply IH].
Qed.
Lemma lenN_dropN {A} n (l : list A) : lenN (dropN n l) = lenN l - n.
Proof. unfold lenN, dropN. rewrite skipn_length. lia. Qed.
Lemma lenN_takeN {A} n (l : list A) : n <= lenN l -> lenN (takeN n l) = n.
Proof. unfold lenN, takeN. rewrite firstn_length. lia. Qed.
Lemma takeN_dropN {A} n (l : list A) : takeN n l ++ dropN n l = l.
Proof. apply firstn_skipn. Qed.
Lemma dropN_all {A} n (l : list A) : lenN l <= n -> dropN n l = [].
Proof. intros H. apply skipn_all2. unfold lenN in H. lia. Qed.
Lemma takeN_all {A} n (l : list A) : lenN l <= n -> takeN n l = l.
Proof. intros H. apply firstn_all2. unfold lenN in H. lia. Qed.
Lemma dropN_app_le {A} n (a b : list A) : n <= lenN a -> dropN n (a ++ b) = dropN n a ++ b.
Proof.
  intros H. unfold dropN. rewrite skipn_app. unfold lenN in H.
  replace (N.to_nat n - length a)%nat with 0%nat by lia. reflexivity.
Qed.
Lemma takeN_app_le {A} n (a b : list A) : n <= lenN a -> takeN n (a ++ b) = takeN n a.
Proof.
  intros H. unfold takeN. rewrite firstn_app. unfold lenN in H.
  replace (N.to_nat n - length a)%nat with 0%nat by lia. cbn. apply app_nil_r.
Qed.

Lemma rdN_app a b : rdN (lenN a) (a ++ b) = Ok a.
Proof.
  unfold rdN. rewrite lenN_app, takeN_app.
  destruct (lenN a <=? lenN a + lenN b) eqn:E; [reflexivity|lia].
Qed.
Lemma rdN_app' n a b : n = lenN a -> rdN n (a ++ b) = Ok a.
Proof. intros ->; apply rdN_app. Qed.
Lemma rdN_not_ub n m : n <= lenN m -> exists l, rdN n m = Ok l /\ lenN l = n.
Proof.
  intros H. unfold rdN. destruct (n <=? lenN m) eqn:E; [|lia].
  eexists; split; [reflexivity|apply lenN_takeN, H].
Qed.

Lemma be_put_length w x : length (be_put w x) = w.
Proof. revert x; induction w as [|w IH]; intros x; cbn [be_put]; [reflexivity|]. rewrite app_length, IH. cbn. lia. Qed.
Lemma be_put_lenN w x : lenN (be_put w x) = N.of_nat w.
Proof. unfold lenN; rewrite be_put_length; reflexivity. Qed.
Lemma be_put_ok w x : bytes_ok (be_put w x).
Proof.
  revert x; induction w as [|w IH]; intros x; cbn [be_put]; [constructor|].
  apply Forall_app; split; [apply IH|]. constructor; [|constructor]. unfold byte_ok. lia.
Qed.
Lemma be_get_acc_app acc a b : be_get_acc acc (a ++ b) = be_get_acc (be_get_acc acc a) b.
Proof. revert acc; induction a as [|x a IH]; intros acc; cbn [app be_get_acc]; [reflexivity|apply IH]. Qed.
Lemma be_get_put w x : x < 256 ^ N.of_nat w -> be_get (be_put w x) = x.
Proof.
  unfold be_get. revert x. induction w as [|w IH]; intros x Hx.
  - cbn in *. change (256 ^ N.of_nat 0) with 1 in Hx. lia.
  - cbn [be_put]. rewrite be_get_acc_app, IH.
    + cbn [be_get_acc]. lia.
    + apply N.div_lt_upper_bound; [lia|]. rewrite Nat2N.inj_succ, N.pow_succ_r' in Hx. lia.
Qed.
Lemma be_get_acc_bound acc l : bytes_ok l -> be_get_acc acc l < (acc + 1) * 256 ^ lenN l.
Proof.
  revert acc; induction l as [|b l IH]; intros acc H; cbn [be_get_acc].
  - rewrite lenN_nil, N.pow_0_r. lia.
  - inversion_clear H as [|? ? Hb Hl]. rewrite lenN_cons, N.add_1_l, N.pow_succ_r'.
    eapply N.lt_le_trans; [apply IH, Hl|]. unfold byte_ok in Hb.
    rewrite N.mul_assoc. apply N.mul_le_mono_r. lia.
Qed.
Lemma be_get_bound l : bytes_ok l -> be_get l < 256 ^ lenN l.
Proof. intros H. unfold be_get. pose proof (be_get_acc_bound 0 l H). lia. Qed.
Lemma be_put_get l : bytes_ok l -> be_put (length l) (be_get l) = l.
Proof.
  unfold be_get. induction l as [|b l IH] using rev_ind; intros H; [reflexivity|].
  apply Forall_app in H. destruct H as [Hl Hb]. inversion_clear Hb as [|? ? Hb' _].
  rewrite app_length, Nat.add_1_r. cbn [be_put]. rewrite be_get_acc_app. cbn [be_get_acc].
  unfold byte_ok in Hb'.
  replace ((be_get_acc 0 l * 256 + b) / 256) with (be_get_acc 0 l) by lia.
  replace ((be_get_acc 0 l * 256 + b) mod 256) with b by lia.
  rewrite IH by exact Hl. reflexivity.
Qed.

Lemma bytes_ok_app a b : bytes_ok (a ++ b) <-> bytes_ok a /\ bytes_ok b.
Proof. apply Forall_app. Qed.
Lemma bytes_ok_takeN n l : bytes_ok l -> bytes_ok (takeN n l).
Proof. intros H. rewrite <- (takeN_dropN n l) in H. apply bytes_ok_app in H. tauto. Qed.
Lemma bytes_ok_dropN n l : bytes_ok l -> bytes_ok (dropN n l).
Proof. intros H. rewrite <- (takeN_dropN n l) in H. apply bytes_ok_app in H. tauto. Qed.

Lemma zeros_length n : length (zeros n) = n.
Proof. induction n as [|n IH]; cbn; [reflexivity|rewrite IH; reflexivity]. Qed.

Lemma errno_eqb_spec a b : reflect (a = b) (errno_eqb a b).
Proof. destruct a, b; cbn; constructor; congruence. Qed.
Lemma Forall2_length {A B} (R : A -> B -> Prop) la lb : Forall2 R la lb -> length la = length lb.
Proof. intros H. induction H; cbn; congruence. Qed.
Lemma Forall2_impl {A B} (R R' : A -> B -> Prop) la lb : (forall a b, R a b -> R' a b) -> Forall2 R la lb -> Forall2 R' la lb.
Proof. intros Hi H. induction H; constructor; auto. Qed.
