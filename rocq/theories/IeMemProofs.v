(* IeMemProofs.v -- the decoders of pfcp_ies_custom.c on memory (IeMemModel.v) store what those of IesModel.v return *)
From Coq Require Import String Ascii.
From Verif Require Import Base BaseProofs GtlvModel DecEncModel CStr IesModel IesSpec IesProofs TablesModel StrModel MemModel MemSpec MemProofs MemTest GenModel GenProofs GenPfcp PfcpMem PfcpMemProofs IeMemModel.
Local Open Scope string_scope.
Local Open Scope N_scope.
Local Open Scope list_scope.

(* ---------------------------------------------------------------- layout *)
Definition member_sz (te : tenv) (m : member) : N := match mb_arr m with Some n => n * sz te (mb_type m) | None => sz te (mb_type m) end.
Fixpoint chain (te : tenv) (T : string) (ms : list member) (cur : N) : Prop :=
  match ms with
  | [] => cur <= sz te T
  | m :: ms' => cur <= fo te T (mb_name m) /\ chain te T ms' (fo te T (mb_name m) + member_sz te m)
  end.
Definition laid_out (te : tenv) (h : hitem) : Prop :=
  match h with
  | HStruct T ms => chain te T ms 0
  | HUnion T ms => Forall (fun m => fo te T (mb_name m) = 0 /\ member_sz te m <= sz te T) ms
  end.

Lemma get_snoc {A} n (fs : list (string * A)) m x f : has m fs = false -> get n fs = Some f -> get n (fs ++ [(m, x)]) = Some f.
Proof. intros Hh E. rewrite get_app. assert (has n fs = true) as -> by (apply has_get; congruence). exact E. Qed.
Lemma get_last {A} n (fs : list (string * A)) x : has n fs = false -> get n (fs ++ [(n, x)]) = Some x.
Proof. intros Hh. rewrite get_app, Hh, get_cons, String.eqb_refl. reflexivity. Qed.
Lemma lay_keeps te ms : forall c a fs ty, lay_struct te ms c a fs = Some ty -> forall n f, get n fs = Some f -> get n (ty_fields ty) = Some f.
Proof.
  induction ms as [|m ms IH]; intros c a fs ty H n f E; cbn [lay_struct] in H; [injection H as <-; exact E|].
  ob H t Ht. destruct (has (mb_name m) fs) eqn:Hh; [discriminate|]. eapply IH; [exact H|]. apply get_snoc; assumption.
Qed.
Lemma lay_chain te T ty ms : aligns te -> te T = Some ty -> forall c a fs, 0 < a -> lay_struct te ms c a fs = Some ty -> chain te T ms c.
Proof.
  intros HA HT. induction ms as [|m ms IH]; intros c a fs Ha H; cbn [lay_struct chain] in *.
  - injection H as E. unfold sz. rewrite HT, <- E. cbn [ty_size]. apply align_up_le. exact Ha.
  - ob H t Ht. destruct (has (mb_name m) fs) eqn:Hh; [discriminate|].
    pose proof (lay_keeps te ms _ _ _ _ H _ _ (get_last _ _ _ Hh)) as G.
    assert (F : fo te T (mb_name m) = align_up c (ty_align t)) by (unfold fo; rewrite HT, G; reflexivity).
    rewrite F. split; [apply align_up_le, (HA _ _ Ht)|]. replace (member_sz te m) with (fi_size (mkFi (align_up c (ty_align t)) (mb_type m) (ty_size t) (mb_arr m))).
    + eapply IH; [|exact H]. lia.
    + unfold member_sz, fi_size, sz. cbn [fi_n fi_elem]. rewrite Ht. reflexivity.
Qed.
Lemma uni_keeps te ms : forall c a fs ty, lay_union te ms c a fs = Some ty -> forall n f, get n fs = Some f -> get n (ty_fields ty) = Some f.
Proof.
  induction ms as [|m ms IH]; intros c a fs ty H n f E; cbn [lay_union] in H; [injection H as <-; exact E|].
  ob H t Ht. destruct (has (mb_name m) fs) eqn:Hh; [discriminate|]. eapply IH; [exact H|]. apply get_snoc; assumption.
Qed.
Lemma uni_size te ms : forall c a fs ty, 0 < a -> lay_union te ms c a fs = Some ty -> c <= ty_size ty.
Proof.
  induction ms as [|m ms IH]; intros c a fs ty Ha H; cbn [lay_union] in H; [injection H as <-; apply align_up_le, Ha|].
  ob H t Ht. destruct (has (mb_name m) fs) eqn:Hh; [discriminate|]. apply IH in H; lia.
Qed.
Lemma lay_uni te T ty ms : te T = Some ty -> forall c a fs, 0 < a -> lay_union te ms c a fs = Some ty ->
  Forall (fun m => fo te T (mb_name m) = 0 /\ member_sz te m <= sz te T) ms.
Proof.
  intros HT. induction ms as [|m ms IH]; intros c a fs Ha H; [constructor|]. cbn [lay_union] in H.
  ob H t Ht. destruct (has (mb_name m) fs) eqn:Hh; [discriminate|]. constructor; [|eapply IH; [|exact H]; lia].
  pose proof (uni_keeps te ms _ _ _ _ H _ _ (get_last _ _ _ Hh)) as G. apply uni_size in H; [|lia].
  assert (M : member_sz te m = fi_size (mkFi 0 (mb_type m) (ty_size t) (mb_arr m))) by (unfold member_sz, sz, fi_size; rewrite Ht; reflexivity).
  split; [unfold fo; rewrite HT, G; reflexivity|]. rewrite M. unfold sz. rewrite HT. lia.
Qed.
Lemma cc_item te h te' : aligns te -> cc_hitem te h = Some te' -> ext te te' /\ aligns te' /\ laid_out te' h.
Proof.
  intros HA H. destruct h as [T ms|T ms]; unfold cc_hitem in H.
  - destruct (te T) eqn:E; [discriminate|]. ob H ty Hty. injection H as <-. pose proof (bindty_ext T ty te E) as HX.
    assert (HA' : aligns (bindty T ty te)) by (apply bindty_aligns; [apply (struct_spec te ms ty HA Hty)|exact HA]). split; [exact HX|]. split; [exact HA'|].
    cbn [laid_out]. eapply lay_chain; [exact HA'|apply bindty_same| |exact (lay_struct_ext _ _ ms HX _ _ _ _ Hty)]. lia.
  - destruct (te T) eqn:E; [discriminate|]. ob H ty Hty. injection H as <-. pose proof (bindty_ext T ty te E) as HX.
    assert (HA' : aligns (bindty T ty te)).
    { apply bindty_aligns; [|exact HA]. apply (lay_union_spec te ms HA) in Hty; [apply Hty|lia|discriminate]. }
    split; [exact HX|]. split; [exact HA'|].
    cbn [laid_out]. eapply lay_uni; [apply bindty_same| |exact (lay_union_ext _ _ ms HX _ _ _ _ Hty)]. lia.
Qed.
(* declarations that compiled define the same layout after further declarations *)
Lemma cc_item_types te h te' : aligns te -> cc_hitem te h = Some te' ->
  match h with HStruct T ms => exists ty, te' T = Some ty /\ lay_struct te' ms 0 1 [] = Some ty | HUnion T ms => exists ty, te' T = Some ty /\ lay_union te' ms 0 1 [] = Some ty end.
Proof.
  intros HA H. destruct h as [T ms|T ms]; unfold cc_hitem in H; destruct (te T) eqn:E; try discriminate; ob H ty Hty; injection H as <-; pose proof (bindty_ext T ty te E) as HX;
  exists ty; (split; [apply bindty_same|]).
  - exact (lay_struct_ext _ _ ms HX _ _ _ _ Hty).
  - exact (lay_union_ext _ _ ms HX _ _ _ _ Hty).
Qed.
Lemma cc_laid hs : forall te te', aligns te -> cc_h te hs = Some te' -> ext te te' /\ aligns te' /\ Forall (laid_out te') hs.
Proof.
  induction hs as [|h hs IH]; intros te te' HA H; cbn [cc_h] in H; [injection H as <-; split; [apply ext_refl|auto]|].
  ob H te1 H1. destruct (cc_item _ _ _ HA H1) as (E1 & A1 & _). pose proof (cc_item_types _ _ _ HA H1) as L1. destruct (IH _ _ A1 H) as (E2 & A2 & L2).
  split; [exact (ext_trans _ _ _ E1 E2)|]. split; [exact A2|]. constructor; [|exact L2]. destruct h as [T ms|T ms]; destruct L1 as (ty & T1 & L1); cbn [laid_out].
  - eapply lay_chain; [exact A2|exact (E2 _ _ T1)| |exact (lay_struct_ext _ _ ms E2 _ _ _ _ L1)]. lia.
  - eapply lay_uni; [exact (E2 _ _ T1)| |exact (lay_union_ext _ _ ms E2 _ _ _ _ L1)]. lia.
Qed.

(* ---------------------------------------------------------------- memory *)
Lemma get_len a n (m : list N) : a + n <= lenN m -> lenN (get_at a n m) = n.
Proof. intros H. unfold get_at. apply lenN_takeN. rewrite lenN_dropN. lia. Qed.
Lemma rd_get a n m : a + n <= lenN m -> MemModel.rd a n m = (m, Ok (get_at a n m)).
Proof. intros H. unfold MemModel.rd, peek. destruct (N.leb_spec (a + n) (lenN m)); [reflexivity|lia]. Qed.
Lemma wr_step a bs m : a + lenN bs <= lenN m ->
  exists m', wr a bs m = (m', Ok tt) /\ lenN m' = lenN m /\ get_at a (lenN bs) m' = bs /\ forall o n, o + n <= a \/ a + lenN bs <= o -> o + n <= lenN m -> get_at o n m' = get_at o n m.
Proof.
  intros H. destruct (wr_ok a bs m H) as (m' & W & (SL & SB) & P). exists m'. split; [exact W|]. split; [exact SL|]. split.
  - unfold peek in P. destruct (N.leb_spec (a + lenN bs) (lenN m')); [|lia]. injection P as P. exact P.
  - intros o n Ho Hn. specialize (SB o n). unfold peek in SB. rewrite SL in SB. destruct (N.leb_spec (o + n) (lenN m)); [|lia].
    assert (A : Forall (apart (o, n)) [(a, lenN bs)]) by (constructor; [unfold apart; cbn [fst snd]; lia|constructor]). specialize (SB A). injection SB as SB. exact SB.
Qed.
Lemma get_zero a n m : a + n <= lenN m -> Forall (fun b => b = 0) m -> get_at a n m = Base.zeros (N.to_nat n).
Proof.
  intros H HZ. pose proof (get_len a n m H) as L. assert (F : Forall (fun b => b = 0) (get_at a n m)) by (unfold get_at; apply Forall_takeN, Forall_dropN, HZ).
  remember (get_at a n m) as l eqn:El. clear El HZ H. assert (E : N.to_nat n = length l) by (unfold lenN in L; lia). rewrite E. clear E L.
  induction F as [|x l Hx F IH]; [reflexivity|]. cbn [length Base.zeros]. subst x. f_equal. exact IH.
Qed.

(* the C program c, run on mem, does what the value level program r does; the memory keeps its size *)
Definition ref {A B} (S : N) (c : mm A) (mem : list N) (r : res B) (Q : list N -> A -> B -> Prop) : Prop :=
  match r with
  | Ok b => exists mem' a, c mem = (mem', Ok a) /\ lenN mem' = S /\ Q mem' a b
  | Err e => exists mem', c mem = (mem', Err e) /\ lenN mem' = S
  | UB _ => True
  end.
Lemma ref_bind {A B C D} S (c : mm A) (f : A -> mm C) mem (r : res B) (g : B -> res D) P Q :
  ref S c mem r P -> (forall mem' a b, lenN mem' = S -> r = Ok b -> P mem' a b -> ref S (f a) mem' (g b) Q) -> ref S (bindm c f) mem (bind r g) Q.
Proof.
  intros H K. destruct r as [b|e|u]; cbn [bind].
  - destruct H as (mem' & a & E & L & HP). specialize (K mem' a b L eq_refl HP). unfold ref, bindm in *. rewrite E. exact K.
  - destruct H as (mem' & E & L). exists mem'. unfold bindm. rewrite E. auto.
  - exact I.
Qed.
(* steps of the C program that the value level program does not have *)
Lemma ref_skip {A C D} S (c : mm A) (f : A -> mm C) mem mem' a (r : res D) Q : c mem = (mem', Ok a) -> ref S (f a) mem' r Q -> ref S (bindm c f) mem r Q.
Proof. intros E H. unfold ref, bindm in *. rewrite E. exact H. Qed.
Lemma ref_ret {A B} S mem (a : A) (b : B) (Q : list N -> A -> B -> Prop) : lenN mem = S -> Q mem a b -> ref S (ret a) mem (Ok b) Q.
Proof. intros. exists mem, a. auto. Qed.
Lemma ref_src {C D} S m o n (f : list N -> mm C) mem (g : list N -> res D) Q : lenN mem = S ->
  (forall l, at_ofs m o n = Ok l -> ref S (f l) mem (g l) Q) -> ref S (bindm (src m o n) f) mem (bind (at_ofs m o n) g) Q.
Proof.
  intros L H. unfold src. destruct (at_ofs m o n) as [l|e|u] eqn:E; cbn [bind].
  - eapply ref_skip; [reflexivity|]. exact (H l eq_refl).
  - exists mem. split; [reflexivity|exact L].
  - exact I.
Qed.
Lemma ref_ensure {C D} S (b : bool) e (f : unit -> mm C) mem (r : res D) Q : lenN mem = S ->
  (b = true -> ref S (f tt) mem r Q) -> ref S (bindm (ensure b e) f) mem (if b then r else Err e) Q.
Proof.
  intros L H. destruct b; cbn [ensure].
  - eapply ref_skip; [reflexivity|]. exact (H eq_refl).
  - exists mem. split; [reflexivity|exact L].
Qed.
Lemma size_sub_le a b : b <= a -> size_sub a b = a - b.
Proof. intros H. unfold size_sub. destruct (N.ltb_spec a b); [lia|reflexivity]. Qed.
(* take = remaining + read *)
Lemma ref_take {C D} S m len pos n (f : list N -> mm C) mem (g : list N -> res D) Q : lenN mem = S -> pos <= len ->
  (forall l, pos + n <= len -> at_ofs m pos n = Ok l -> ref S (f l) mem (g l) Q) ->
  ref S (_ <~ remaining len pos n ;; bindm (src m pos n) f) mem (bind (take m len pos n) g) Q.
Proof.
  intros L HP H. unfold remaining, take. rewrite size_sub_le by exact HP. destruct (N.ltb_spec (len - pos) n) as [K|K]; cbn [bind].
  - assert (n <=? len - pos = false) as -> by (apply N.leb_gt; exact K). exists mem. split; [reflexivity|exact L].
  - assert (n <=? len - pos = true) as -> by (apply N.leb_le; exact K). eapply ref_skip; [reflexivity|]. apply ref_src; [exact L|]. intros l E. apply H; [lia|exact E].
Qed.
Lemma ref_wr {C D} S a bs (f : unit -> mm C) mem (r : res D) Q : lenN mem = S -> a + lenN bs <= S ->
  (forall mem', lenN mem' = S -> get_at a (lenN bs) mem' = bs -> (forall o n, o + n <= a \/ a + lenN bs <= o -> o + n <= S -> get_at o n mem' = get_at o n mem) -> ref S (f tt) mem' r Q) ->
  ref S (bindm (wr a bs) f) mem r Q.
Proof.
  intros L H K. subst S. destruct (wr_step a bs mem H) as (mem' & W & L' & G & O). eapply ref_skip; [exact W|]. apply K; auto.
Qed.
Lemma ref_wr_end {D} S a bs mem (d : D) (Q : list N -> unit -> D -> Prop) : lenN mem = S -> a + lenN bs <= S ->
  (forall mem', lenN mem' = S -> get_at a (lenN bs) mem' = bs -> (forall o n, o + n <= a \/ a + lenN bs <= o -> o + n <= S -> get_at o n mem' = get_at o n mem) -> Q mem' tt d) ->
  ref S (wr a bs) mem (Ok d) Q.
Proof.
  intros L H K. subst S. destruct (wr_step a bs mem H) as (mem' & W & L' & G & O). exists mem', tt. auto.
Qed.
Lemma at_ofs_ok m o n l : bytes_ok m -> at_ofs m o n = Ok l -> bytes_ok l /\ lenN l = n.
Proof. intros B E. unfold at_ofs in E. apply rdN_bytes in E; [exact E|apply bytes_ok_dropN, B]. Qed.
