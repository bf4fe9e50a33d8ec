(* EncPrefixProofs.v -- what encoding appends to a msgb depends on how much is in the msgb, not on what *)
From Verif Require Import Base BaseProofs GtlvModel GtlvSpec GtlvProofs DecEncModel DecEncSpec DecEncProofs EncAppendProofs.

Definition psync (A B : list N) (p p' : put) : Prop :=
  (exists x, pt_buf p = A ++ x /\ pt_buf p' = B ++ x) /\ pt_cap p = pt_cap p' /\ pt_last p = pt_last p'
  /\ match pt_last p with None => True | Some (_, tl, _) => lenN A <= tl end.
Definition rsync (A B : list N) (r r' : pres) : Prop :=
  match r, r' with POk p, POk p' => psync A B p p' | PErr p e, PErr p' e' => psync A B p p' /\ e = e' | PUB u, PUB u' => u = u' | _, _ => False end.
Definition esync (A B : list N) (r r' : eres) : Prop :=
  match r, r' with
  | EOk b, EOk b' => exists x, b = A ++ x /\ b' = B ++ x
  | EErr b e, EErr b' e' => (exists x, b = A ++ x /\ b' = B ++ x) /\ e = e'
  | EUB u, EUB u' => u = u'
  | _, _ => False
  end.
Section EQ.
Context {V : Type}.
Lemma psync_room A B p p' : lenN A = lenN B -> psync A B p p' -> tailroom (pt_buf p) (pt_cap p) = tailroom (pt_buf p') (pt_cap p') /\ lenN (pt_buf p) = lenN (pt_buf p').
Proof. intros HL ((x & E & E') & C & _). unfold tailroom. rewrite E, E', C, !lenN_app, HL. auto. Qed.
Lemma put_tli_sync A B c p p' ti len : lenN A = lenN B -> psync A B p p' ->
  psync A B (fst (put_tli c p ti len)) (fst (put_tli c p' ti len)) /\ snd (put_tli c p ti len) = snd (put_tli c p' ti len).
Proof.
  intros HL H. destruct (psync_room A B p p' HL H) as [R R2]. unfold put_tli. rewrite <- R.
  destruct (cfg_store c _ ti len) as [h|e|u]; [|split; [exact H|reflexivity]..]. destruct (_ <? _); [split; [exact H|reflexivity]|]. cbn [fst snd]. split; [|reflexivity].
  destruct H as ((x & E & E') & C & _). split; [exists (x ++ h); cbn [pt_buf]; rewrite E, E', !app_assoc; auto|]. cbn [pt_cap pt_last]. rewrite <- R2.
  split; [exact C|]. split; [reflexivity|]. rewrite E, lenN_app. lia.
Qed.
Lemma dropN_app_ge n (a b : list N) : lenN a <= n -> dropN n (a ++ b) = dropN (n - lenN a) b.
Proof.
  intros H. unfold dropN. rewrite skipn_app. rewrite skipn_all2 by (unfold lenN in H; lia). cbn [app]. f_equal. unfold lenN in *. lia.
Qed.
Lemma overwrite_app a x ofs bs : lenN a <= ofs -> overwrite (a ++ x) ofs bs = a ++ overwrite x (ofs - lenN a) bs.
Proof.
  intros H. unfold overwrite. rewrite takeN_app_ge, dropN_app_ge by lia. rewrite <- app_assoc. do 3 f_equal. f_equal. lia.
Qed.
Lemma put_update_sync A B c p p' : lenN A = lenN B -> psync A B p p' ->
  psync A B (fst (put_update_tl c p)) (fst (put_update_tl c p')) /\ snd (put_update_tl c p) = snd (put_update_tl c p').
Proof.
  intros HL H. destruct (psync_room A B p p' HL H) as [_ R]. pose proof H as ((x & E & E') & C & L & Q). unfold put_update_tl. rewrite <- L.
  destruct (pt_last p) as [[[ti tl] v]|]; [|split; [exact H|reflexivity]]. rewrite <- R. destruct (cfg_store c _ ti _) as [h|e|u]; [|split; [exact H|reflexivity]..].
  cbn [fst snd]. split; [|reflexivity]. split; [|cbn; auto]. exists (overwrite x (tl - lenN A) h). cbn [pt_buf]. rewrite E, E'. split; [apply overwrite_app; lia|].
  rewrite HL. apply overwrite_app. lia.
Qed.
Definition syncs (enc : cfg -> N -> list N -> val V -> eres) : Prop :=
  forall c cap A B v, lenN A = lenN B -> esync A B (enc c cap A v) (enc c cap B v).
Lemma esync_ext A B x r r' : esync (A ++ x) (B ++ x) r r' -> esync A B r r'.
Proof.
  destruct r as [b|b e|u], r' as [b'|b' e'|u']; cbn; auto.
  - intros (y & -> & ->). exists (x ++ y). rewrite !app_assoc. auto.
  - intros [(y & -> & ->) E]. split; [exists (x ++ y); rewrite !app_assoc; auto|exact E].
Qed.
Lemma enc_vals_sync c (e : eentry V) A B : lenN A = lenN B -> syncs (ee_enc e) -> forall vals p p' i, psync A B p p' ->
  rsync A B (enc_vals c e p i vals) (enc_vals c e p' i vals).
Proof.
  intros HL He. induction vals as [|v vals IH]; intros p p' i H; cbn [enc_vals]; [exact H|].
  destruct (put_tli_sync A B c p p' (h_ti (ee_h e)) 0 HL H) as [H1 H2].
  destruct (put_tli c p (h_ti (ee_h e)) 0) as [p1 rc], (put_tli c p' (h_ti (ee_h e)) 0) as [p1' rc']. cbn [fst snd] in H1, H2. subst rc'.
  set (k := match h_multi (ee_h e) with Some (mx, _) => mx <=? i | None => false end).
  assert (G : rsync A B (if k then PErr p1 ENOTSUP else
      match ee_enc e c (pt_cap p1) (pt_buf p1) v with
      | EUB u => PUB u
      | EErr buf er => PErr (mkPut buf (pt_cap p1) (pt_last p1)) er
      | EOk buf => match put_update_tl c (mkPut buf (pt_cap p1) (pt_last p1)) with (_, UB u) => PUB u | (p2, _) => enc_vals c e p2 (i + 1) vals end
      end)
     (if k then PErr p1' ENOTSUP else
      match ee_enc e c (pt_cap p1') (pt_buf p1') v with
      | EUB u => PUB u
      | EErr buf er => PErr (mkPut buf (pt_cap p1') (pt_last p1')) er
      | EOk buf => match put_update_tl c (mkPut buf (pt_cap p1') (pt_last p1')) with (_, UB u) => PUB u | (p2, _) => enc_vals c e p2 (i + 1) vals end
      end)).
  { destruct k; [split; [exact H1|reflexivity]|]. destruct H1 as ((x & E & E') & C & L & Q). rewrite <- C, <- L, E, E'.
    pose proof (He c (pt_cap p1) (A ++ x) (B ++ x) v ltac:(rewrite !lenN_app; lia)) as G. apply esync_ext in G.
    assert (SY : forall b b', (exists y, b = A ++ y /\ b' = B ++ y) -> psync A B (mkPut b (pt_cap p1) (pt_last p1)) (mkPut b' (pt_cap p1) (pt_last p1))).
    { intros b b' Y. split; [exact Y|]. cbn [pt_cap pt_last]. auto. }
    destruct (ee_enc e c (pt_cap p1) (A ++ x) v) as [b|b er|u], (ee_enc e c (pt_cap p1) (B ++ x) v) as [b'|b' er'|u']; cbn [esync] in G; try contradiction.
    - destruct (put_update_sync A B c _ _ HL (SY b b' G)) as [G1 G2].
      destruct (put_update_tl c (mkPut b _ _)) as [p2 r2], (put_update_tl c (mkPut b' _ _)) as [p2' r2']. cbn [fst snd] in G1, G2. subst r2'.
      destruct r2; [apply IH, G1|apply IH, G1|reflexivity].
    - destruct G as [G ->]. split; [apply SY, G|reflexivity].
    - exact G. }
  destruct rc; [exact G|exact G|reflexivity].
Qed.
Lemma enc_entries_sync c (es : list (eentry V)) A B : lenN A = lenN B -> Forall (fun e => syncs (ee_enc e)) es -> forall slots p p', psync A B p p' ->
  rsync A B (enc_entries c es p slots) (enc_entries c es p' slots).
Proof.
  intros HL He. induction He as [|e es He _ IH]; intros [|s slots] p p' H; cbn [enc_entries]; try exact H.
  pose proof (enc_vals_sync c e A B HL He (to_encode (ee_h e) s) p p' 0 H) as G.
  destruct (enc_vals c e p 0 _) as [p1|p1 er|u], (enc_vals c e p' 0 _) as [p1'|p1' er'|u']; cbn [rsync] in G; try contradiction; [apply IH; exact G|exact G|exact G].
Qed.
Lemma enc_list_sync c (es : list (eentry V)) cap A B slots : lenN A = lenN B -> Forall (fun e => syncs (ee_enc e)) es ->
  esync A B (enc_list c cap es A slots) (enc_list c cap es B slots).
Proof.
  intros HL He. unfold enc_list.
  pose proof (enc_entries_sync c es A B HL He slots (mkPut A cap None) (mkPut B cap None)) as H.
  destruct (enc_entries c es (mkPut A cap None) slots) as [p|p er|u], (enc_entries c es (mkPut B cap None) slots) as [p'|p' er'|u']; cbn in *;
    (assert (S : psync A B (mkPut A cap None) (mkPut B cap None)) by (split; [exists []; cbn; rewrite !app_nil_r; auto|cbn; auto])); specialize (H S); try contradiction.
  - destruct H as (H & _). exact H.
  - destruct H as ((H & _) & E). auto.
  - exact H.
Qed.
Lemma enc_coding_sync : forall cd : coding V, syncs (enc_coding cd).
Proof.
  induction cd as [h l|h nc o ies IH] using coding_ind'; intros c cap A B v HL.
  - cbn. destruct v as [x|]; [|reflexivity]. destruct (lf_enc l) as [f|]; [|reflexivity]. unfold tailroom. rewrite <- HL.
    destruct (f (cap - lenN A) x) as [bs [er|]]; destruct (_ <? _); cbn; try reflexivity; [split; [|reflexivity]|]; exists bs; auto.
  - cbn. destruct v as [|slots]; [reflexivity|]. apply enc_list_sync; [exact HL|]. apply Forall_map. rewrite Forall_forall in *. intros d Hd. apply IH, Hd.
Qed.
Theorem gtlvs_encode_sync c (tbl : option (list (coding V))) cap A B slots : lenN A = lenN B ->
  esync A B (gtlvs_encode c cap tbl A slots) (gtlvs_encode c cap tbl B slots).
Proof.
  intros HL. destruct tbl as [ies|]; cbn [gtlvs_encode].
  - apply enc_list_sync; [exact HL|]. apply Forall_map. rewrite Forall_forall. intros d _. apply enc_coding_sync.
  - cbn. split; [exists []; rewrite !app_nil_r; auto|reflexivity].
Qed.
End EQ.
