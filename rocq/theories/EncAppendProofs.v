(* EncAppendProofs.v -- encoding only appends to the msgb, never beyond its capacity, whether it succeeds or fails *)
From Verif Require Import Base BaseProofs GtlvModel GtlvSpec GtlvProofs DecEncModel DecEncSpec DecEncProofs EncShapeProofs.

Lemma overwrite_lenN buf ofs bs : ofs + lenN bs <= lenN buf -> lenN (overwrite buf ofs bs) = lenN buf.
Proof. intros H. unfold overwrite. rewrite !lenN_app, lenN_takeN, lenN_dropN by lia. lia. Qed.

Lemma takeN_app_ge n (a b : list N) : lenN a <= n -> takeN n (a ++ b) = a ++ takeN (n - lenN a) b.
Proof.
  intros H. unfold takeN. rewrite firstn_app. rewrite firstn_all2 by (unfold lenN in H; lia). f_equal. f_equal. unfold lenN in *. lia.
Qed.

Section EA.
Context {V : Type}.
Context (c : cfg) (hs maxlen : N) (hdr : tag_inst -> N -> list N) (tag_ok : tag_inst -> Prop)
        (HF : fixed_format c hs maxlen hdr tag_ok).

Let st_len ti len avail h : cfg_store c avail ti len = Ok h -> lenN h = hs /\ hs <= avail. Proof. apply HF. Qed.

Definition pre_ok (P : list N) (cap : N) (p : put) : Prop :=
  (exists x, pt_buf p = P ++ x) /\ lenN (pt_buf p) <= cap /\ pt_cap p = cap
  /\ match pt_last p with None => True | Some (_, tl, v) => lenN P <= tl /\ v = tl + hs /\ v <= lenN (pt_buf p) end.
Definition pok (P : list N) (cap : N) (r : pres) : Prop :=
  match r with POk p => pre_ok P cap p | PErr p _ => pre_ok P cap p | PUB _ => True end.
Definition eok (buf : list N) (cap : N) (r : eres) : Prop :=
  match r with EOk b | EErr b _ => (exists x, b = buf ++ x) /\ lenN b <= cap | EUB _ => True end.

Lemma put_tli_pre P cap p ti len p' rc : put_tli c p ti len = (p', rc) -> pre_ok P cap p -> pre_ok P cap p'.
Proof.
  unfold put_tli, tailroom. intros H Hp. destruct (cfg_store c _ ti len) as [h|e|u] eqn:E; [|inversion H; subst; assumption..].
  apply st_len in E as [E1 E2]. dif_in H E3; [injection H as <- <-; assumption|]. injection H as <- <-.
  destruct Hp as ((x & Hx) & Hl & Hc & _). unfold pre_ok. cbn. split; [exists (x ++ h); rewrite Hx, app_assoc; reflexivity|].
  assert (lenN P <= lenN (pt_buf p)) by (rewrite Hx, lenN_app; lia).
  rewrite lenN_app. lia.
Qed.
Lemma put_update_pre P cap p p' rc : put_update_tl c p = (p', rc) -> pre_ok P cap p -> pre_ok P cap p'.
Proof.
  unfold put_update_tl. intros H Hp. destruct (pt_last p) as [[[ti tl] v]|] eqn:El; [|inversion H; subst; assumption].
  destruct (cfg_store c _ ti _) as [h|e|u] eqn:E; [|inversion H; subst; assumption..].
  apply st_len in E as [E1 E2]. injection H as <- <-. destruct Hp as ((x & Hx) & Hl & Hc & Hq). rewrite El in Hq. destruct Hq as (Hq1 & Hq2 & Hq3).
  unfold pre_ok. cbn [pt_buf pt_cap pt_last]. rewrite overwrite_lenN by lia.
  split; [|lia]. unfold overwrite. rewrite Hx. exists (takeN (tl - lenN P) x ++ h ++ dropN (tl + lenN h) (P ++ x)).
  rewrite (app_assoc P).
  rewrite (takeN_app_ge tl P x) by exact Hq1. reflexivity.
Qed.

Definition app_enc (enc : cfg -> N -> list N -> val V -> eres) : Prop :=
  forall cap buf v, lenN buf <= cap -> eok buf cap (enc c cap buf v).

Lemma pre_ok_value P cap p b : pre_ok P cap p -> (exists x, b = pt_buf p ++ x) -> lenN b <= cap -> pre_ok P cap (mkPut b (pt_cap p) (pt_last p)).
Proof.
  intros ((x & Hx) & Hl & Hc & Hq) (y & ->) Hb. unfold pre_ok. cbn. split; [exists (x ++ y); rewrite Hx, app_assoc; reflexivity|].
  split; [exact Hb|]. split; [exact Hc|]. destruct (pt_last p) as [[[ti tl] v]|]; [|exact I]. rewrite lenN_app. lia.
Qed.

Lemma enc_vals_pre (e : eentry V) P cap : app_enc (ee_enc e) -> forall vals p i, pre_ok P cap p -> pok P cap (enc_vals c e p i vals).
Proof.
  intros He. induction vals as [|v vals IH]; intros p i Hp; cbn [enc_vals]; [exact Hp|].
  destruct (put_tli c p (h_ti (ee_h e)) 0) as [p1 rc] eqn:E1. pose proof (put_tli_pre _ _ _ _ _ _ _ E1 Hp) as Hp1.
  assert (H : pok P cap (if match h_multi (ee_h e) with Some (mx, _) => mx <=? i | None => false end then PErr p1 ENOTSUP else
      match ee_enc e c (pt_cap p1) (pt_buf p1) v with
      | EUB u => PUB u
      | EErr buf er => PErr (mkPut buf (pt_cap p1) (pt_last p1)) er
      | EOk buf =>
        match put_update_tl c (mkPut buf (pt_cap p1) (pt_last p1)) with
        | (_, UB u) => PUB u
        | (p2, _) => enc_vals c e p2 (i + 1) vals
        end
      end)).
  { match goal with |- context [if ?b then _ else _] => destruct b end; [exact Hp1|].
    assert (Hc1 : pt_cap p1 = cap) by apply Hp1.
    pose proof (He (pt_cap p1) (pt_buf p1) v ltac:(rewrite Hc1; apply Hp1)) as Hv.
    destruct (ee_enc e c (pt_cap p1) (pt_buf p1) v) as [b|b er|u]; cbn in Hv; [| |exact I];
      rewrite Hc1 in Hv at 1; destruct Hv as [Hx Hl].
    - destruct (put_update_tl c (mkPut b (pt_cap p1) (pt_last p1))) as [p2 rc2] eqn:E2.
      pose proof (put_update_pre P cap _ _ _ E2 (pre_ok_value _ _ _ _ Hp1 Hx Hl)) as Hp2.
      destruct rc2; [apply IH, Hp2|apply IH, Hp2|exact I].
    - apply pre_ok_value; assumption. }
  destruct rc; [exact H|exact H|exact I].
Qed.
Lemma enc_entries_pre (es : list (eentry V)) P cap : Forall (fun e => app_enc (ee_enc e)) es -> forall slots p, pre_ok P cap p ->
  pok P cap (enc_entries c es p slots).
Proof.
  intros He. induction He as [|e es He _ IH]; intros [|s slots] p Hp; cbn [enc_entries]; try exact Hp.
  pose proof (enc_vals_pre e P cap He (to_encode (ee_h e) s) p 0 Hp) as H.
  destruct (enc_vals c e p 0 _) as [p1|p1 er|u]; [apply IH; exact H|exact H|exact I].
Qed.
Lemma enc_list_app (es : list (eentry V)) cap buf slots : Forall (fun e => app_enc (ee_enc e)) es -> lenN buf <= cap ->
  eok buf cap (enc_list c cap es buf slots).
Proof.
  intros He Hl. unfold enc_list. pose proof (enc_entries_pre es buf cap He slots (mkPut buf cap None)) as H.
  destruct (enc_entries c es (mkPut buf cap None) slots) as [p|p er|u]; cbn in *; [| |exact I];
    (destruct H as (H1 & H2 & _); [repeat split; cbn; [exists []; rewrite app_nil_r; reflexivity|exact Hl]|]; split; assumption).
Qed.
Lemma enc_coding_app : forall cd, all_cfgs (fun x => x = c) cd -> app_enc (enc_coding (V := V) cd).
Proof.
  induction cd as [h l|h nc o ies IH] using coding_ind'; intros Hc cap buf v Hl.
  - cbn. destruct v as [x|]; [|exact I]. destruct (lf_enc l) as [f|]; [|exact I].
    destruct (f (tailroom buf cap) x) as [bs [er|]]; dif E; try exact I; unfold tailroom in E; cbn; (split; [exists bs; reflexivity|]); rewrite lenN_app; lia.
  - cbn [all_cfgs] in Hc. destruct Hc as [Hc1 Hc2]. rewrite fold_right_and_Forall in Hc2. cbn. destruct v as [|slots]; [exact I|].
    replace (match nc with Some x => x | None => c end) with c by (destruct nc; congruence).
    apply enc_list_app; [|exact Hl]. apply Forall_map. rewrite Forall_forall in *. intros d Hd. apply IH; auto.
Qed.
Theorem gtlvs_encode_app ies cap buf slots : Forall (all_cfgs (fun x => x = c)) ies -> lenN buf <= cap ->
  eok buf cap (gtlvs_encode (V := V) c cap (Some ies) buf slots).
Proof.
  intros Hc Hl. cbn [gtlvs_encode]. apply enc_list_app; [|exact Hl]. apply Forall_map. rewrite Forall_forall in *.
  intros d Hd. apply enc_coding_app; auto.
Qed.
End EA.
