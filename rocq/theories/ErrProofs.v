(* ErrProofs.v -- calls of the error callback (C77) *)
From Verif Require Import Base BaseProofs GtlvModel GtlvSpec GtlvProofs DecEncModel DecEncSpec DecEncProofs DecOrdProofs DecCharProofs
  TestTables GtlvInst IesModel TablesModel MsgModel ErrModel ErrSpec.

Section Proofs.
Context {V : Type}.
Notation tags L := (rev (map fst (L : reports))).

(* ---------------------------------------------------------------- the results are those of DecEncModel.v *)
Lemma fst_rbind {A B} (x : rp A) (f : A -> rp B) : fst (rbind x f) = bind (fst x) (fun a => fst (f a)).
Proof. destruct x as [[a|e|u] l]; cbn [rbind fst bind]; [destruct (f a); reflexivity|reflexivity|reflexivity]. Qed.
Lemma fst_on {A} ti (x : rp A) : fst (on_error ti x) = fst x.
Proof. destruct x as [[a|e|u] l]; reflexivity. Qed.

Definition erase (e : rentry V) : entry V := mkEntry (re_h e) (fun c o m n => fst (re_dec e c o m n)).
Lemma place_erase c es : forall idx allowed slots ti m len, fst (place_r c es idx allowed slots ti m len) = place c (map erase es) idx allowed slots ti m len.
Proof.
  induction es as [|e es IH]; intros idx allowed [|s slots] ti m len; cbn [place_r place map].
  - destruct (allowed =? 0); reflexivity.
  - destruct (allowed =? 0); reflexivity.
  - destruct (allowed =? 0); reflexivity.
  - cbn [erase e_h e_dec].
    repeat lazymatch goal with |- fst (if ?b then _ else _) = _ => destruct b end; try reflexivity;
      rewrite fst_rbind; try rewrite IH; try rewrite fst_on; try reflexivity.
    apply bind_ext. intros v _. destruct (seen_max <=? idx); reflexivity.
Qed.
Lemma unord_erase c es fuel : forall g slots,
  bind (fst (unord_loop_r fuel c es g slots)) (fun x => Ok (fst x)) = unord_loop fuel c (map erase es) g slots.
Proof.
  induction fuel as [|f IH]; intros g slots; cbn [unord_loop_r unord_loop]; [reflexivity|].
  destruct (load_next c g) as [g' [x|e|u]]; [|reflexivity|reflexivity]. destruct (ld_val g') as [v|]; [|reflexivity].
  rewrite fst_rbind, place_erase, bind_assoc. apply bind_ext. intros s _. apply IH.
Qed.
Lemma mand_erase last es : forall idx slots, fst (check_mand_r last idx es slots) = check_mand idx (map erase es) slots.
Proof.
  induction es as [|e es IH]; intros idx [|s slots]; cbn [check_mand_r check_mand map]; try reflexivity. cbn [erase e_h].
  destruct (h_pres (re_h e)); [apply IH|]. destruct (h_multi (re_h e)) as [[mx md]|].
  - destruct (lenN s <? md); [reflexivity|apply IH].
  - destruct (seen_max <=? idx); [reflexivity|]. destruct (nonempty s); [apply IH|reflexivity].
Qed.
Lemma unordered_erase c es m n : fst (decode_unordered_r c es m n) = decode_unordered c (map erase es) m n.
Proof.
  unfold decode_unordered_r, decode_unordered. rewrite fst_rbind, map_map. cbn [erase].
  rewrite <- unord_erase. rewrite bind_assoc. apply bind_ext. intros [slots last] _. cbn [bind fst snd].
  rewrite fst_rbind, mand_erase. reflexivity.
Qed.
Definition mode_of (md : rmode) : omode := match md with ROuter => MOuter | RInner => MInner | RJump _ => MJump end.
Lemma ord_erase c fuel : forall md es g slots, fst (ord_loop_r fuel md c es g slots) = ord_loop fuel (mode_of md) c (map erase es) g slots.
Proof.
  induction fuel as [|f IH]; intros md es g slots; cbn [ord_loop_r ord_loop]; [reflexivity|].
  destruct es as [|e es]; cbn [map]; [destruct md; reflexivity|]. destruct slots as [|s slots]; [destruct md; reflexivity|].
  cbn [erase e_h e_dec].
  assert (HD : forall x y,
    x = (if match h_multi (re_h e) with Some (mx, _) => mx <=? lenN s | None => false end then rub OobWrite else
        rbind (on_error (h_ti (re_h e)) (re_dec e c true (match ld_val g with Some v => dropN v (ld_mem g) | None => [] end) (ld_len g))) (fun v =>
        let s' := match h_multi (re_h e) with Some _ => s ++ [v] | None => [v] end in
        match h_multi (re_h e) with
        | None => rbind (ord_loop_r f ROuter c es g slots) (fun r => rret (s' :: r))
        | Some _ =>
          match load_peek_tag c g with
          | UB u => rub u
          | Err _ => rbind (ord_loop_r f ROuter c es g slots) (fun r => rret (s' :: r))
          | Ok peek =>
            if negb (ti_match peek (ld_ti g)) then rbind (ord_loop_r f ROuter c es g slots) (fun r => rret (s' :: r))
            else match load_next c g with
              | (_, Err e) => rsilent e
              | (_, UB u) => rub u
              | (g', Ok _) => ord_loop_r f RInner c (e :: es) g' (s' :: slots)
              end
          end
        end)) ->
    y = (if match h_multi (re_h e) with Some (mx, _) => mx <=? lenN s | None => false end then UB OobWrite else
        v <- fst (re_dec e c true (match ld_val g with Some v => dropN v (ld_mem g) | None => [] end) (ld_len g)) ;;
        let s' := match h_multi (re_h e) with Some _ => s ++ [v] | None => [v] end in
        match h_multi (re_h e) with
        | None => r <- ord_loop f MOuter c (map erase es) g slots ;; Ok (s' :: r)
        | Some _ =>
          match load_peek_tag c g with
          | UB u => UB u
          | Err _ => r <- ord_loop f MOuter c (map erase es) g slots ;; Ok (s' :: r)
          | Ok peek =>
            if negb (ti_match peek (ld_ti g)) then r <- ord_loop f MOuter c (map erase es) g slots ;; Ok (s' :: r)
            else match load_next c g with
              | (_, Err e) => Err e
              | (_, UB u) => UB u
              | (g', Ok _) => ord_loop f MInner c (erase e :: map erase es) g' (s' :: slots)
              end
          end
        end) -> fst x = y).
  { intros x y -> ->. destruct (match h_multi (re_h e) with Some (mx, _) => mx <=? lenN s | None => false end); [reflexivity|].
    rewrite fst_rbind, fst_on. apply bind_ext. intros v _. cbv zeta.
    assert (HO : forall s', fst (rbind (ord_loop_r f ROuter c es g slots) (fun r => rret (s' :: r))) = (r <- ord_loop f MOuter c (map erase es) g slots ;; Ok (s' :: r))).
    { intros s'. rewrite fst_rbind, IH. reflexivity. }
    destruct (h_multi (re_h e)) as [[mx mdn]|]; [|apply HO]. destruct (load_peek_tag c g) as [pk|er|u]; [|apply HO|reflexivity].
    destruct (negb (ti_match pk (ld_ti g))); [apply HO|]. destruct (load_next c g) as [g' [x|er|u]]; [|reflexivity|reflexivity].
    rewrite IH. reflexivity. }
  destruct md as [| |full]; cbn [mode_of].
  - destruct (load_next_by_tag_inst c g (h_ti (re_h e))) as [g' [x|er|u]]; [rewrite IH; reflexivity| |reflexivity].
    destruct er; try reflexivity.
    destruct (negb (h_pres (re_h e)) && match h_multi (re_h e) with Some (_, mand) => lenN s <? mand | None => true end); [reflexivity|].
    rewrite fst_rbind, IH. reflexivity.
  - generalize (HD _ _ eq_refl eq_refl). clear HD.
    destruct (match h_multi (re_h e) with Some (mx, _) => mx <=? lenN s | None => false end); intros HD; [rewrite fst_rbind, IH; reflexivity|exact HD].
  - destruct (ti_match (ld_ti g) (h_ti (re_h e))); [apply HD; reflexivity|]. rewrite fst_rbind, IH. reflexivity.
Qed.
Lemma entries_erase c o es m n : fst (decode_entries_r c o es m n) = decode_entries c o (map erase es) m n.
Proof.
  unfold decode_entries_r, decode_entries. destruct o; [|apply unordered_erase]. unfold decode_ordered_r, decode_ordered. rewrite ord_erase.
  rewrite !map_map, map_length. reflexivity.
Qed.
(* tables with equal decoders decode equally *)
Definition same_entries (es es' : list (entry V)) : Prop :=
  Forall2 (fun e e' => e_h e = e_h e' /\ forall c o m n, e_dec e c o m n = e_dec e' c o m n) es es'.
Lemma place_same c es es' : same_entries es es' -> forall idx allowed slots ti m len, place c es idx allowed slots ti m len = place c es' idx allowed slots ti m len.
Proof.
  intros H. induction H as [|e e' es es' [Hh Hd] HF IH]; intros idx allowed [|s slots] ti m len; cbn [place]; try reflexivity.
  rewrite <- Hh, <- Hd, !IH. reflexivity.
Qed.
Lemma unord_same c es es' : same_entries es es' -> forall fuel g slots, unord_loop fuel c es g slots = unord_loop fuel c es' g slots.
Proof.
  intros H. induction fuel as [|f IH]; intros g slots; cbn [unord_loop]; [reflexivity|]. destruct (load_next c g) as [g' [x|e|u]]; try reflexivity.
  destruct (ld_val g'); [|reflexivity]. rewrite (place_same c es es' H). apply bind_ext. intros s _. apply IH.
Qed.
Lemma mand_same es es' : same_entries es es' -> forall idx slots, check_mand idx es slots = check_mand idx es' slots.
Proof.
  intros H. induction H as [|e e' es es' [Hh Hd] HF IH]; intros idx [|s slots]; cbn [check_mand]; try reflexivity. rewrite <- Hh, IH. reflexivity.
Qed.
Lemma ord_same c : forall fuel mode es es' g slots, same_entries es es' -> ord_loop fuel mode c es g slots = ord_loop fuel mode c es' g slots.
Proof.
  induction fuel as [|f IH]; intros mode es es' g slots H; cbn [ord_loop]; [reflexivity|]. destruct H as [|e e' es es' [Hh Hd] HF]; [reflexivity|].
  destruct slots as [|s slots]; [reflexivity|]. rewrite <- Hh.
  assert (HI : forall g' s', ord_loop f MInner c (e :: es) g' s' = ord_loop f MInner c (e' :: es') g' s')
    by (intros; apply IH; constructor; [split; assumption|exact HF]).
  rewrite <- !Hd. destruct mode.
  - destruct (load_next_by_tag_inst c g (h_ti (e_h e))) as [g' [x|er|u]]; [apply HI| |reflexivity].
    destruct er; try reflexivity. rewrite (IH MOuter es es' g slots HF). reflexivity.
  - rewrite (IH MJump es es' g slots HF). destruct (match h_multi (e_h e) with Some (mx, _) => mx <=? lenN s | None => false end); [reflexivity|].
    apply bind_ext. intros v _. cbv zeta. rewrite (IH MOuter es es' g slots HF).
    destruct (h_multi (e_h e)); [|reflexivity]. destruct (load_peek_tag c g); try reflexivity. destruct (negb (ti_match a (ld_ti g))); [reflexivity|].
    destruct (load_next c g) as [g' [x|er|u]]; try reflexivity. apply HI.
  - rewrite (IH MJump es es' g slots HF). destruct (ti_match (ld_ti g) (h_ti (e_h e))); [|reflexivity].
    destruct (match h_multi (e_h e) with Some (mx, _) => mx <=? lenN s | None => false end); [reflexivity|].
    apply bind_ext. intros v _. cbv zeta. rewrite (IH MOuter es es' g slots HF).
    destruct (h_multi (e_h e)); [|reflexivity]. destruct (load_peek_tag c g); try reflexivity. destruct (negb (ti_match a (ld_ti g))); [reflexivity|].
    destruct (load_next c g) as [g' [x|er|u]]; try reflexivity. apply HI.
Qed.
Lemma same_init es es' : same_entries es es' -> map (fun _ : entry V => @nil (val V)) es = map (fun _ => @nil (val V)) es'.
Proof. intros H. induction H as [|e e' es es' _ HF IH]; cbn [map]; [reflexivity|]. rewrite IH. reflexivity. Qed.
Lemma same_len es es' : same_entries es es' -> length es = length es'.
Proof. intros H. induction H; cbn [length]; congruence. Qed.
Lemma entries_same c o es es' m n : same_entries es es' -> decode_entries c o es m n = decode_entries c o es' m n.
Proof.
  intros H. unfold decode_entries. destruct o.
  - unfold decode_ordered. rewrite (same_init _ _ H), (same_len _ _ H). apply ord_same, H.
  - unfold decode_unordered. rewrite (same_init _ _ H), (unord_same c es es' H). apply bind_ext. intros s _. rewrite (mand_same es es' H). reflexivity.
Qed.
Lemma coding_erase (cd : coding V) : forall c o m n, fst (dec_coding_r cd c o m n) = dec_coding cd c o m n.
Proof.
  induction cd as [h l|h nc no ies IH] using coding_ind'; intros c o m n; cbn [dec_coding_r dec_coding].
  - destruct (lf_dec l) as [d|]; [|reflexivity]. destruct (d m n); reflexivity.
  - rewrite fst_rbind, entries_erase. erewrite entries_same; [reflexivity|]. rewrite map_map.
    induction IH as [|d ies Hd _ IH2]; cbn [map]; constructor; [|exact IH2]. cbn [erase e_h e_dec re_h re_dec]. split; [reflexivity|exact Hd].
Qed.
Lemma decode_erase c o ies m n : fst (gtlvs_decode_r c o ies m n) = gtlvs_decode (V := V) c o ies m n.
Proof.
  destruct ies as [ies|]; [|reflexivity]. unfold gtlvs_decode_r, gtlvs_decode. rewrite entries_erase. apply entries_same. rewrite map_map.
  induction ies as [|d ies IH]; cbn [map]; constructor; [|exact IH]. split; [reflexivity|]. intros. apply coding_erase.
Qed.

(* ---------------------------------------------------------------- what is reported *)
Definition gs {A} (P : errno -> list tag_inst -> Prop) (x : rp A) : Prop :=
  match x with (Err e, L) => Forall (fun r => snd r = e) L /\ P e (tags L) | (_, L) => L = [] end.
Lemma gs_bind {A B} P (x : rp A) (f : A -> rp B) : gs P x -> (forall a, gs P (f a)) -> gs P (rbind x f).
Proof.
  destruct x as [[a|e|u] l]; cbn [rbind]; intros H Hf; [|exact H|exact H]. cbn [gs] in H. subst l. specialize (Hf a). destruct (f a) as [r l']. exact Hf.
Qed.
Lemma gs_ret {A} P (x : A) : gs P (rret x). Proof. reflexivity. Qed.
Lemma gs_ub {A} P u : gs (A := A) P (rub u). Proof. reflexivity. Qed.
Lemma gs_report {A} (P : errno -> list tag_inst -> Prop) e ti : P e [ti] -> gs (A := A) P (return_error e ti).
Proof. intros H. split; [repeat constructor|exact H]. Qed.
Lemma gs_silent {A} (P : errno -> list tag_inst -> Prop) e : P e [] -> gs (A := A) P (rsilent e).
Proof. intros H. split; [constructor|exact H]. Qed.
Lemma gs_on {A} (P Q : errno -> list tag_inst -> Prop) ti (x : rp A) : gs Q x -> (forall e ts, Q e ts -> P e (ti :: ts)) -> gs P (on_error ti x).
Proof.
  destruct x as [[a|e|u] l]; cbn [on_error]; intros H HP; [exact H| |exact H]. destruct H as [H1 H2]. split.
  - apply Forall_app. split; [exact H1|repeat constructor].
  - rewrite map_app, rev_app_distr. cbn [map rev app fst]. apply HP, H2.
Qed.

(* what may be reported from within the value of an IE *)
Definition in_value (d : coding V) (c : cfg) (o : bool) (m : list N) (n : N) (e : errno) (ts : list tag_inst) : Prop :=
  match d with
  | CLeaf _ l => ts = [] /\ match lf_dec l with None => e = EIO | Some f => f m n = Err e end
  | CNest _ nc no inner =>
    dec_fails inner (match nc with Some x => x | None => c end) (match no with OrdSame => o | OrdOrdered => true | OrdUnordered => false end) m n e ts
  end.
Lemma in_value_struct ies d c o m n m' n' e ti ts : In d ies -> ti_match (h_ti (head d)) ti = true -> value_in m n m' n' ->
  in_value d c o m' n' e ts -> dec_fails ies c o m n e (ti :: ts).
Proof.
  destruct d as [h l|h nc no inner]; cbn [head in_value]; intros Hin Hti Hv H.
  - destruct H as [-> H]. exact (df_leaf ies c o m n m' n' e h l ti Hin Hti Hv H).
  - exact (df_nested ies c o m n m' n' e h nc no inner ti ts Hin Hti Hv H).
Qed.

(* the loader is on the [n] bytes at [m], its current TLV inside of them *)
Definition on_src (m : list N) (n : N) (g : load) : Prop := ld_mem g = m /\ ld_srclen g = n /\ ld_pos g <= n.
Lemma on_start m n : on_src m n (load_start m n).
Proof. unfold on_src, load_start, ld_pos. cbn [ld_mem ld_srclen ld_val]. split; [reflexivity|]. split; [reflexivity|]. lia. Qed.
Lemma on_value m n g v : on_src m n g -> ld_val g = Some v -> value_in m n (dropN v (ld_mem g)) (ld_len g).
Proof. intros (H1 & H2 & H3) Hv. unfold ld_pos in H3. rewrite Hv in H3. exists v. rewrite H1. split; [reflexivity|exact H3]. Qed.
Lemma load_next_on c m n g g' x : on_src m n g -> load_next c g = (g', Ok x) -> on_src m n g'.
Proof.
  intros (H1 & H2 & H3) H. unfold load_next in H. destruct (next_tl_valid c g) as [[st lft]|er|u] eqn:E; [|discriminate|discriminate].
  destruct (lft =? 0).
  - injection H as <- _. unfold on_src, ld_pos. cbn [ld_mem ld_srclen ld_val]. split; [exact H1|]. split; [exact H2|]. lia.
  - destruct (cfg_load c (dropN st (ld_mem g)) lft) as [[[ti len] hsz]|er|u]; [|discriminate|discriminate].
    dif_in H EE; [discriminate|]. injection H as <- _. apply N.ltb_ge in EE. rewrite H2 in EE.
    unfold on_src, ld_pos. cbn [ld_mem ld_srclen ld_val ld_len]. split; [exact H1|]. split; [exact H2|exact EE].
Qed.
Lemma load_next_error c m n g e : on_src m n g -> snd (load_next c g) = Err e -> tlv_error c m n e.
Proof.
  intros (H1 & H2 & H3). unfold load_next. destruct (next_tl_valid c g) as [[st lft]|er|u] eqn:E.
  - unfold next_tl_valid in E. fold (ld_pos g) in E. dif_in E E0; [discriminate|]. dif_in E E1; [discriminate|]. injection E as <- <-.
    dif E2; [discriminate|]. apply N.eqb_neq in E2. rewrite H1, H2 in *. intros H. exists (ld_pos g), (n - ld_pos g). split; [lia|]. split; [exact E2|].
    destruct (cfg_load c (dropN (ld_pos g) m) (n - ld_pos g)) as [[[ti len] hsz]|er|u] eqn:EL; cbn [snd] in H.
    + dif_in H E3; cbn [snd] in H; [|discriminate]. injection H as <-. apply N.ltb_lt in E3. right. right. exists ti, len, hsz.
      split; [reflexivity|]. split; [lia|reflexivity].
    + injection H as <-. right. left. reflexivity.
    + discriminate.
  - cbn [snd]. intros H. injection H as <-. unfold next_tl_valid in E. fold (ld_pos g) in E. rewrite H2 in E.
    dif_in E E0; [apply N.ltb_lt in E0; lia|]. dif_in E E1; [|discriminate]. injection E as <-.
    apply andb_prop in E1. destruct E1 as [E1 E2]. apply Bool.negb_true_iff, N.eqb_neq in E1. apply Bool.orb_prop in E2.
    exists (ld_pos g), (n - ld_pos g). split; [lia|]. split; [exact E1|]. left. split; [|reflexivity].
    destruct E2 as [E2|E2]; apply N.ltb_lt in E2; lia.
  - discriminate.
Qed.
Lemma by_tag_error c ti fuel m n : forall g e, on_src m n g -> by_tag_loop fuel c g ti = Err e -> e = ENOENT \/ tlv_error c m n e.
Proof.
  induction fuel as [|f IH]; intros g e Hg; cbn [by_tag_loop]; [discriminate|]. destruct (load_next c g) as [g' [x|er|u]] eqn:E.
  - pose proof (load_next_on c m n g g' x Hg E) as Hg'. destruct (ld_val g'); [|intros H; injection H as <-; left; reflexivity].
    destruct (ti_match (ld_ti g') ti); [discriminate|exact (IH g' e Hg')].
  - intros H. injection H as <-. right. apply (load_next_error c m n g); [exact Hg|]. rewrite E. reflexivity.
  - discriminate.
Qed.
Lemma by_tag_on c ti fuel m n : forall g g', on_src m n g -> by_tag_loop fuel c g ti = Ok g' -> on_src m n g' /\ ld_val g' <> None.
Proof.
  induction fuel as [|f IH]; intros g g' Hg; cbn [by_tag_loop]; [discriminate|]. destruct (load_next c g) as [g1 [x|er|u]] eqn:E; [|discriminate|discriminate].
  pose proof (load_next_on c m n g g1 x Hg E) as Hg'. destruct (ld_val g1) eqn:Ev; [|discriminate].
  destruct (ti_match (ld_ti g1) ti); [|exact (IH g1 g' Hg')]. intros H. injection H as <-. split; [exact Hg'|]. rewrite Ev. discriminate.
Qed.
Lemma peek_next c g g' pk x : load_peek_tag c g = Ok pk -> load_next c g = (g', Ok x) -> ld_val g' <> None.
Proof.
  unfold load_peek_tag, load_next. destruct (next_tl_valid c g) as [[st lft]|er|u]; [|discriminate|discriminate]. destruct (lft =? 0); [discriminate|].
  destruct (cfg_load c (dropN st (ld_mem g)) lft) as [[[ti len] hsz]|er|u]; [|discriminate|discriminate]. intros _.
  destruct (ld_srclen g <? st + hsz + len); [discriminate|]. intros H. injection H as <- _. discriminate.
Qed.

Section Table.
Variable c : cfg.
Variable ies : list (coding V).
Variable m0 : list N.
Variable n0 : N.
Hypothesis Hval : Forall (fun d => forall c o m n, gs (in_value d c o m n) (dec_coding_r d c o m n)) ies.
Lemma val_of d o m n : In d ies -> gs (in_value d c o m n) (dec_coding_r d c o m n).
Proof. intros H. rewrite Forall_forall in Hval. exact (Hval d H c o m n). Qed.

Lemma place_good l : forall idx allowed slots ti m len, value_in m0 n0 m len -> (exists pre, ies = pre ++ l /\ lenN pre = idx) ->
  (allowed <> 0 -> exists d, In d ies /\ ti_match (h_ti (head d)) ti = true) ->
  gs (dec_fails ies c false m0 n0) (place_r c (map rentry_of l) idx allowed slots ti m len).
Proof.
  induction l as [|d l IH]; intros idx allowed slots ti m len Hm Hpre Hall; cbn [map place_r].
  - dif E; [apply gs_ret|]. apply gs_report. apply N.eqb_neq in E. destruct (Hall E) as (d & Hin & Hx). exact (df_surplus ies c false m0 n0 d ti Hin Hx).
  - destruct slots as [|s slots].
    { dif E; [apply gs_ret|]. apply gs_report. apply N.eqb_neq in E. destruct (Hall E) as (dd & Hin & Hx). exact (df_surplus ies c false m0 n0 dd ti Hin Hx). }
    cbn [rentry_of re_h re_dec].
    assert (Hd : In d ies) by (destruct Hpre as (pre & -> & _); apply in_or_app; right; left; reflexivity).
    assert (Hn : exists pre, ies = pre ++ l /\ lenN pre = idx + 1).
    { destruct Hpre as (pre & -> & <-). exists (pre ++ [d]). rewrite <- app_assoc. split; [reflexivity|]. rewrite lenN_app. reflexivity. }
    assert (Hbig : seen_max <=? idx = true -> 4096 < lenN ies).
    { intros Hle. apply N.leb_le in Hle. unfold seen_max in Hle. destruct Hpre as (pre & -> & <-). rewrite lenN_app, lenN_cons. lia. }
    dif E1; [apply gs_bind; [apply IH; assumption|intros r; apply gs_ret]|].
    apply Bool.negb_false_iff in E1.
    assert (Hall' : forall k, k <> 0 -> exists d, In d ies /\ ti_match (h_ti (head d)) ti = true) by (intros k _; exists d; split; assumption).
    dif E2; [apply gs_bind; [apply IH; [exact Hm|exact Hn|apply Hall']|intros r; apply gs_ret]|].
    dif E3; [apply gs_report; apply andb_prop in E3; exact (df_table ies c m0 n0 ti (Hbig (proj2 E3)))|].
    dif E4; [apply gs_bind; [apply IH; [exact Hm|exact Hn|apply Hall']|intros r; apply gs_ret]|].
    apply gs_bind.
    + apply (gs_on _ (in_value d c false m len)); [apply val_of, Hd|]. intros e ts H. exact (in_value_struct ies d c false m0 n0 m len e ti ts Hd E1 Hm H).
    + intros v. destruct (seen_max <=? idx) eqn:E5; [apply gs_report; exact (df_table ies c m0 n0 ti (Hbig eq_refl))|apply gs_ret].
Qed.
Lemma unord_good fuel : forall g slots, on_src m0 n0 g -> gs (dec_fails ies c false m0 n0) (unord_loop_r fuel c (map rentry_of ies) g slots).
Proof.
  induction fuel as [|f IH]; intros g slots Hg; cbn [unord_loop_r]; [apply gs_ub|].
  destruct (load_next c g) as [g' [x|e|u]] eqn:E; [|apply gs_report, df_tlv, (load_next_error c m0 n0 g _ Hg); rewrite E; reflexivity|apply gs_ub].
  pose proof (load_next_on c m0 n0 g g' x Hg E) as Hg'.
  destruct (ld_val g') as [v|] eqn:Ev; [|apply gs_ret]. apply gs_bind; [|intros s; apply IH, Hg'].
  apply place_good; [exact (on_value m0 n0 g' v Hg' Ev)|exists []; split; reflexivity|intros H; contradiction].
Qed.
Lemma mand_good last l : forall idx slots, (exists pre, ies = pre ++ l /\ lenN pre = idx) -> gs (dec_fails ies c false m0 n0) (check_mand_r last idx (map rentry_of l) slots).
Proof.
  induction l as [|d l IH]; intros idx slots Hpre; cbn [map check_mand_r]; [apply gs_ret|]. destruct slots as [|s slots]; [apply gs_ret|].
  cbn [rentry_of re_h].
  assert (Hd : In d ies) by (destruct Hpre as (pre & -> & _); apply in_or_app; right; left; reflexivity).
  assert (Hn : exists pre, ies = pre ++ l /\ lenN pre = idx + 1).
  { destruct Hpre as (pre & -> & <-). exists (pre ++ [d]). rewrite <- app_assoc. split; [reflexivity|]. rewrite lenN_app. reflexivity. }
  destruct (h_pres (head d)) eqn:Ep; [apply IH, Hn|]. destruct (h_multi (head d)) as [[mx mdn]|] eqn:Em.
  - dif E; [apply gs_report; apply (df_missing ies c false m0 n0 d Hd Ep); rewrite Em; apply N.ltb_lt in E; lia|apply IH, Hn].
  - dif E.
    + apply gs_report, df_table. apply N.leb_le in E. unfold seen_max in E. destruct Hpre as (pre & -> & <-). rewrite lenN_app, lenN_cons. lia.
    + destruct (nonempty s); [apply IH, Hn|]. apply gs_report. apply (df_missing ies c false m0 n0 d Hd Ep). rewrite Em. exact I.
Qed.
Lemma unordered_good : gs (dec_fails ies c false m0 n0) (decode_unordered_r c (map rentry_of ies) m0 n0).
Proof.
  unfold decode_unordered_r. apply gs_bind; [apply unord_good, on_start|]. intros x. apply gs_bind; [|intros u; apply gs_ret].
  apply mand_good. exists []. split; reflexivity.
Qed.

Lemma ord_good fuel : forall md l g slots, incl l ies -> on_src m0 n0 g ->
  match md with ROuter => True | RInner => ld_val g <> None | RJump full => ld_val g <> None /\ exists d, In d ies /\ h_ti (head d) = full end ->
  gs (dec_fails ies c true m0 n0) (ord_loop_r fuel md c (map rentry_of l) g slots).
Proof.
  induction fuel as [|f IH]; intros md l g slots Hl Hg Hmd; cbn [ord_loop_r]; [apply gs_ub|].
  destruct l as [|d l]; cbn [map].
  { destruct md; try apply gs_ret. apply gs_report. destruct Hmd as (_ & d & Hin & <-). exact (df_surplus ies c true m0 n0 d _ Hin (ti_match_refl _)). }
  destruct slots as [|s slots].
  { destruct md; try apply gs_ret. apply gs_report. destruct Hmd as (_ & d' & Hin & <-). exact (df_surplus ies c true m0 n0 d' _ Hin (ti_match_refl _)). }
  cbn [rentry_of re_h re_dec].
  assert (Hd : In d ies) by (apply Hl; left; reflexivity).
  assert (Hl' : incl l ies) by (intros x Hx; apply Hl; right; exact Hx).
  assert (HO : forall s', gs (dec_fails ies c true m0 n0) (rbind (ord_loop_r f ROuter c (map rentry_of l) g slots) (fun r => rret (s' :: r)))).
  { intros s'. apply gs_bind; [apply IH; [exact Hl'|exact Hg|exact I]|intros r; apply gs_ret]. }
  assert (HD : ld_val g <> None -> gs (dec_fails ies c true m0 n0) (if match h_multi (head d) with Some (mx, _) => mx <=? lenN s | None => false end then rub OobWrite else
        rbind (on_error (h_ti (head d)) (dec_coding_r d c true (match ld_val g with Some v => dropN v (ld_mem g) | None => [] end) (ld_len g))) (fun v =>
        let s' := match h_multi (head d) with Some _ => s ++ [v] | None => [v] end in
        match h_multi (head d) with
        | None => rbind (ord_loop_r f ROuter c (map rentry_of l) g slots) (fun r => rret (s' :: r))
        | Some _ =>
          match load_peek_tag c g with
          | UB u => rub u
          | Err _ => rbind (ord_loop_r f ROuter c (map rentry_of l) g slots) (fun r => rret (s' :: r))
          | Ok peek =>
            if negb (ti_match peek (ld_ti g)) then rbind (ord_loop_r f ROuter c (map rentry_of l) g slots) (fun r => rret (s' :: r))
            else match load_next c g with
              | (_, Err e) => rsilent e
              | (_, UB u) => rub u
              | (g', Ok _) => ord_loop_r f RInner c (rentry_of d :: map rentry_of l) g' (s' :: slots)
              end
          end
        end))).
  { intros Hval'. dif E; [apply gs_ub|]. apply gs_bind.
    - destruct (ld_val g) as [v|] eqn:Ev; [|contradiction]. apply (gs_on _ (in_value d c true (dropN v (ld_mem g)) (ld_len g))); [apply val_of, Hd|].
      intros e ts H. exact (in_value_struct ies d c true m0 n0 _ _ e _ ts Hd (ti_match_refl _) (on_value m0 n0 g v Hg Ev) H).
    - intros v. cbv zeta. destruct (h_multi (head d)) as [[mx mdn]|] eqn:Em; [|apply HO].
      destruct (load_peek_tag c g) as [pk|er|u] eqn:EP; [|apply HO|apply gs_ub]. dif E2; [apply HO|].
      destruct (load_next c g) as [g' [x|er|u]] eqn:EN; [| |apply gs_ub].
      + exact (IH RInner (d :: l) g' _ Hl (load_next_on c m0 n0 g g' x Hg EN) (peek_next c g g' pk x EP EN)).
      + apply gs_silent. apply (df_tlv_silent ies c m0 n0 er d); [|exact Hd|rewrite Em; discriminate].
        apply (load_next_error c m0 n0 g _ Hg). rewrite EN. reflexivity. }
  destruct md as [| |full].
  - unfold load_next_by_tag_inst. destruct (by_tag_loop (budget (ld_mem g) (ld_srclen g)) c g (h_ti (head d))) as [g'|er|u] eqn:EB; [| |apply gs_ub].
    { destruct (by_tag_on c _ _ m0 n0 g g' Hg EB) as [Hg1 Hv1]. exact (IH RInner (d :: l) g' _ Hl Hg1 Hv1). }
    pose proof (by_tag_error c _ _ m0 n0 _ _ Hg EB) as He.
    assert (Hrep : er <> ENOENT -> gs (A := list (slot V)) (dec_fails ies c true m0 n0) (return_error er (h_ti (head d)))).
    { intros Hne. apply gs_report, df_tlv. destruct He as [He|He]; [contradiction|exact He]. }
    destruct er; try (apply Hrep; discriminate).
    dif E; [|apply gs_bind; [apply IH; [exact Hl'|exact Hg|exact I]|intros r; apply gs_ret]].
    apply gs_report. apply andb_prop in E. destruct E as [E EM]. apply Bool.negb_true_iff in E. apply (df_missing ies c true m0 n0 d Hd E).
    destruct (h_multi (head d)) as [[mx mdn]|]; [apply N.ltb_lt in EM; lia|exact I].
  - destruct (match h_multi (head d) with Some (mx, _) => mx <=? lenN s | None => false end) eqn:E; [|exact (HD Hmd)].
    apply gs_bind; [|intros r; apply gs_ret]. apply IH; [exact Hl'|exact Hg|]. split; [exact Hmd|]. exists d. split; [exact Hd|reflexivity].
  - dif E; [exact (HD (proj1 Hmd))|]. apply gs_bind; [|intros r; apply gs_ret]. apply IH; [exact Hl'|exact Hg|exact Hmd].
Qed.
Lemma entries_good o : gs (dec_fails ies c o m0 n0) (decode_entries_r c o (map rentry_of ies) m0 n0).
Proof.
  unfold decode_entries_r. destruct o; [|apply unordered_good]. unfold decode_ordered_r. apply ord_good; [apply incl_refl|apply on_start|exact I].
Qed.
End Table.

Lemma value_good (d : coding V) : forall c o m n, gs (in_value d c o m n) (dec_coding_r d c o m n).
Proof.
  induction d as [h l|h nc no ies IH] using coding_ind'; intros c o m n; cbn [dec_coding_r].
  - destruct (lf_dec l) as [f|] eqn:E; [destruct (f m n) as [v|e|u] eqn:Ef|]; try reflexivity;
      (split; [constructor|]); cbn [map rev in_value]; (split; [reflexivity|]); rewrite E; [exact Ef|reflexivity].
  - apply gs_bind; [|intros r; apply gs_ret]. exact (entries_good _ ies m n IH _).
Qed.
Lemma decode_reports c o (ies : list (coding V)) m n : gs (dec_fails ies c o m n) (gtlvs_decode_r c o (Some ies) m n).
Proof. apply entries_good. apply Forall_forall. intros d _. apply value_good. Qed.

(* failures of unordered decoding are reported *)
Lemma fails_reported (ies : list (coding V)) c o m n e ts : dec_fails ies c o m n e ts -> o = false -> ts <> [].
Proof. intros H. destruct H; intros Ho; try discriminate. Qed.

(* ---------------------------------------------------------------- encoding *)
Definition erase_e (e : reentry V) : eentry V := mkEEntry (ree_h e) (fun c cap buf v => fst (ree_enc e c cap buf v)).
Lemma enc_vals_erase c e vals : forall p i, fst (enc_vals_r c e p i vals) = enc_vals c (erase_e e) p i vals.
Proof.
  induction vals as [|v vals IH]; intros p i; cbn [enc_vals_r enc_vals]; [reflexivity|]. cbn [erase_e ee_h ee_enc].
  destruct (put_tli c p (h_ti (ree_h e)) 0) as [p1 [x|er|u]]; [| |reflexivity];
  (destruct (match h_multi (ree_h e) with Some (mx, _) => mx <=? i | None => false end); [reflexivity|];
   destruct (ree_enc e c (pt_cap p1) (pt_buf p1) v) as [[buf|buf er'|u'] l]; cbn [fst]; try reflexivity;
   destruct (put_update_tl c (mkPut buf (pt_cap p1) (pt_last p1))) as [p2 [y|er''|u'']]; try reflexivity;
   rewrite <- IH; destruct (enc_vals_r c e p2 (i + 1) vals); reflexivity).
Qed.
Lemma enc_entries_erase c es : forall p slots, fst (enc_entries_r c es p slots) = enc_entries c (map erase_e es) p slots.
Proof.
  induction es as [|e es IH]; intros p [|s slots]; cbn [enc_entries_r enc_entries map]; try reflexivity.
  rewrite <- enc_vals_erase. cbn [erase_e ee_h]. destruct (enc_vals_r c e p 0 (to_encode (ree_h e) s)) as [[p'|p' er|u] l]; cbn [fst]; try reflexivity.
  rewrite <- IH. destruct (enc_entries_r c es p' slots). reflexivity.
Qed.
Lemma enc_list_erase c cap es buf slots : fst (enc_list_r c cap es buf slots) = enc_list c cap (map erase_e es) buf slots.
Proof.
  unfold enc_list_r, enc_list. rewrite <- enc_entries_erase. destruct (enc_entries_r c es (mkPut buf cap None) slots) as [[p|p e|u] l]; reflexivity.
Qed.
Definition same_eentries (es es' : list (eentry V)) : Prop :=
  Forall2 (fun e e' => ee_h e = ee_h e' /\ forall c cap buf v, ee_enc e c cap buf v = ee_enc e' c cap buf v) es es'.
Lemma enc_vals_same c e e' vals : ee_h e = ee_h e' -> (forall c cap buf v, ee_enc e c cap buf v = ee_enc e' c cap buf v) ->
  forall p i, enc_vals (V := V) c e p i vals = enc_vals c e' p i vals.
Proof.
  intros Hh He. induction vals as [|v vals IH]; intros p i; cbn [enc_vals]; [reflexivity|]. rewrite <- Hh.
  destruct (put_tli c p (h_ti (ee_h e)) 0) as [p1 [x|er|u]]; [| |reflexivity]; rewrite <- He;
  (destruct (match h_multi (ee_h e) with Some (mx, _) => mx <=? i | None => false end); [reflexivity|];
   destruct (ee_enc e c (pt_cap p1) (pt_buf p1) v); try reflexivity;
   destruct (put_update_tl c (mkPut buf (pt_cap p1) (pt_last p1))) as [p2 [y|er''|u'']]; try reflexivity; apply IH).
Qed.
Lemma enc_entries_same c es es' : same_eentries es es' -> forall p slots, enc_entries c es p slots = enc_entries c es' p slots.
Proof.
  intros H. induction H as [|e e' es es' [Hh He] HF IH]; intros p [|s slots]; cbn [enc_entries]; try reflexivity.
  rewrite <- Hh, (enc_vals_same c e e' _ Hh He). destruct (enc_vals c e' p 0 (to_encode (ee_h e) s)); try reflexivity. apply IH.
Qed.
Lemma enc_coding_erase (d : coding V) : forall c cap buf v, fst (enc_coding_r d c cap buf v) = enc_coding d c cap buf v.
Proof.
  induction d as [h l|h nc no ies IH] using coding_ind'; intros c cap buf v; cbn [enc_coding_r enc_coding].
  - destruct v as [x|sl]; [|destruct (lf_enc l); reflexivity]. destruct (lf_enc l) as [f|]; [|reflexivity].
    destruct (f (tailroom buf cap) x) as [bs e]. destruct (tailroom buf cap <? lenN bs); [reflexivity|]. destruct e; reflexivity.
  - destruct v as [x|sl]; [reflexivity|]. rewrite enc_list_erase. unfold enc_list. erewrite enc_entries_same; [reflexivity|]. rewrite map_map.
    induction IH as [|d ies Hd _ IH2]; cbn [map]; constructor; [|exact IH2]. split; [reflexivity|exact Hd].
Qed.
Lemma encode_erase c cap ies buf slots : fst (gtlvs_encode_r c cap ies buf slots) = gtlvs_encode (V := V) c cap ies buf slots.
Proof.
  destruct ies as [ies|]; [|reflexivity]. unfold gtlvs_encode_r, gtlvs_encode. rewrite enc_list_erase. unfold enc_list. erewrite enc_entries_same; [reflexivity|].
  rewrite map_map. induction ies as [|d ies IH]; cbn [map]; constructor; [|exact IH]. split; [reflexivity|]. intros. apply enc_coding_erase.
Qed.

Definition ges (P : errno -> list tag_inst -> Prop) (x : eres * reports) : Prop :=
  match x with (EErr _ e, L) => Forall (fun r => snd r = e) L /\ P e (tags L) | (_, L) => L = [] end.
Definition gps (P : errno -> list tag_inst -> Prop) (x : pres * reports) : Prop :=
  match x with (PErr _ e, L) => Forall (fun r => snd r = e) L /\ P e (tags L) | (_, L) => L = [] end.
Definition in_enc (d : coding V) (v : val V) (e : errno) (ts : list tag_inst) : Prop :=
  match d with
  | CLeaf _ l => ts = [] /\ exists f room x bs, v = VLeaf x /\ lf_enc l = Some f /\ f room x = (bs, Some e)
  | CNest _ _ _ inner => exists sl, v = VStruct sl /\ enc_fails inner sl e ts
  end.
Lemma enc_vals_good c ies slots d s : In (d, s) (combine ies slots) -> (forall c cap buf v, ges (in_enc d v) (enc_coding_r d c cap buf v)) ->
  forall vals p i, incl vals s -> i + lenN vals <= lenN s -> gps (enc_fails ies slots) (enc_vals_r c (reentry_of d) p i vals).
Proof.
  intros Hd Hv. induction vals as [|v vals IH]; intros p i Hs Hi; cbn [enc_vals_r]; [reflexivity|]. cbn [reentry_of ree_h ree_enc].
  assert (Hvs : In v s) by (apply Hs; left; reflexivity). assert (Hs' : incl vals s) by (intros y Hy; apply Hs; right; exact Hy).
  rewrite lenN_cons in Hi.
  assert (HX : forall p1, gps (enc_fails ies slots) (if match h_multi (head d) with Some (mx, _) => mx <=? i | None => false end then (PErr p1 ENOTSUP, [(h_ti (head d), ENOTSUP)]) else
      match enc_coding_r d c (pt_cap p1) (pt_buf p1) v with
      | (EUB u, l) => (PUB u, l)
      | (EErr buf er, l) => (PErr (mkPut buf (pt_cap p1) (pt_last p1)) er, l ++ [(h_ti (head d), er)])
      | (EOk buf, l) =>
        match put_update_tl c (mkPut buf (pt_cap p1) (pt_last p1)) with
        | (_, UB u) => (PUB u, l)
        | (p2, _) => let '(x, l') := enc_vals_r c (reentry_of d) p2 (i + 1) vals in (x, l ++ l')
        end
      end)).
  { intros p1. destruct (h_multi (head d)) as [[mx mdn]|] eqn:Em.
    1: destruct (mx <=? i) eqn:El; [split; [repeat constructor|]; cbn [map rev app fst]; apply (ef_surplus ies slots d s mx mdn Hd Em); apply N.leb_le in El; lia|].
    all: specialize (Hv c (pt_cap p1) (pt_buf p1) v); destruct (enc_coding_r d c (pt_cap p1) (pt_buf p1) v) as [[buf|buf er|u] l]; cbn [ges] in Hv;
      [subst l; destruct (put_update_tl c (mkPut buf (pt_cap p1) (pt_last p1))) as [p2 [y|er''|u'']]; try reflexivity;
       specialize (IH p2 (i + 1) Hs' ltac:(lia)); destruct (enc_vals_r c (reentry_of d) p2 (i + 1) vals) as [x l']; exact IH
      |destruct Hv as [H1 H2]; split; [apply Forall_app; split; [exact H1|repeat constructor]|]; rewrite map_app, rev_app_distr; cbn [map rev app fst];
       destruct d as [h l0|h nc no inner]; cbn [in_enc head] in H2 |- *;
         [destruct H2 as [-> (f & room & v0 & bs & -> & Hf & Hfe)]; exact (ef_leaf ies slots er h l0 s f v0 room bs Hd Hvs Hf Hfe)
         |destruct H2 as (sl & -> & H2); exact (ef_nested ies slots er h nc no inner s sl _ Hd Hvs H2)]
      |exact Hv]. }
  destruct (put_tli c p (h_ti (head d)) 0) as [p1 [x|er|u]]; [apply HX|apply HX|reflexivity].
Qed.
Lemma to_encode_part h (s : slot V) : incl (to_encode h s) s /\ lenN (to_encode h s) <= lenN s.
Proof.
  unfold to_encode. destruct (h_multi h); [split; [apply incl_refl|lia]|]. split; [intros x Hx; rewrite <- (firstn_skipn 1 s); apply in_or_app; left; exact Hx|].
  unfold lenN. rewrite firstn_length. lia.
Qed.
Lemma enc_entries_good c ies slots : Forall (fun d => forall c cap buf v, ges (in_enc d v) (enc_coding_r d c cap buf v)) ies ->
  forall l sl p, incl l ies -> incl (combine l sl) (combine ies slots) -> gps (enc_fails ies slots) (enc_entries_r c (map reentry_of l) p sl).
Proof.
  intros Hv. induction l as [|d l IH]; intros [|s sl] p Hl Hc; cbn [map enc_entries_r]; try reflexivity.
  assert (Hd : In d ies) by (apply Hl; left; reflexivity). pose proof (proj1 (Forall_forall _ _) Hv d Hd) as Hvd. cbn beta in Hvd.
  destruct (to_encode_part (ree_h (reentry_of d)) s) as [Hi Hn].
  pose proof (enc_vals_good c ies slots d s (Hc _ (or_introl eq_refl)) Hvd (to_encode (ree_h (reentry_of d)) s) p 0 Hi Hn) as H.
  destruct (enc_vals_r c (reentry_of d) p 0 (to_encode (ree_h (reentry_of d)) s)) as [[p'|p' er|u] L]; try exact H. cbn [gps] in H. subst L.
  assert (Hl' : incl l ies) by (intros x Hx; apply Hl; right; exact Hx).
  assert (Hc' : incl (combine l sl) (combine ies slots)) by (intros x Hx; apply Hc; right; exact Hx). specialize (IH sl p' Hl' Hc').
  destruct (enc_entries_r c (map reentry_of l) p' sl) as [x l']. exact IH.
Qed.
Lemma enc_list_good c cap ies buf slots : Forall (fun d => forall c cap buf v, ges (in_enc d v) (enc_coding_r d c cap buf v)) ies ->
  ges (enc_fails ies slots) (enc_list_r c cap (map reentry_of ies) buf slots).
Proof.
  intros Hv. pose proof (enc_entries_good c ies slots Hv ies slots (mkPut buf cap None) (incl_refl _) (incl_refl _)) as H. unfold enc_list_r.
  destruct (enc_entries_r c (map reentry_of ies) (mkPut buf cap None) slots) as [[p|p e|u] l]; exact H.
Qed.
Lemma enc_value_good (d : coding V) : forall c cap buf v, ges (in_enc d v) (enc_coding_r d c cap buf v).
Proof.
  induction d as [h l|h nc no ies IH] using coding_ind'; intros c cap buf v; cbn [enc_coding_r].
  - destruct v as [x|sl]; [|destruct (lf_enc l); reflexivity]. destruct (lf_enc l) as [f|] eqn:El; [|reflexivity].
    destruct (f (tailroom buf cap) x) as [bs e] eqn:Ef. destruct (tailroom buf cap <? lenN bs); [reflexivity|]. destruct e as [e|]; [|reflexivity].
    split; [constructor|]. cbn [map rev in_enc]. split; [reflexivity|]. exists f, (tailroom buf cap), x, bs. split; [reflexivity|]. split; [exact El|exact Ef].
  - destruct v as [x|sl]; [reflexivity|]. pose proof (enc_list_good (match nc with Some x => x | None => c end) cap ies buf sl IH) as H.
    change (map (fun d => mkREEntry (head d) (enc_coding_r d)) ies) with (map reentry_of ies).
    unfold ges in H |- *. destruct (enc_list_r (match nc with Some x => x | None => c end) cap (map reentry_of ies) buf sl) as [[b|b e|u] l].
    + exact H.
    + destruct H as [H1 H2]. split; [exact H1|]. exists sl. split; [reflexivity|exact H2].
    + exact H.
Qed.
Lemma encode_reports c cap (ies : list (coding V)) buf slots : ges (enc_fails ies slots) (gtlvs_encode_r c cap (Some ies) buf slots).
Proof. apply enc_list_good, Forall_forall. intros d _. apply enc_value_good. Qed.
Lemma enc_fails_reported (ies : list (coding V)) slots e ts : enc_fails ies slots e ts -> ts <> [].
Proof. intros H. destruct H; discriminate. Qed.

(* ---------------------------------------------------------------- the statements of C77 *)
Lemma decode_result (ies : list (coding V)) c o m n : let '(r, L) := gtlvs_decode_r c o (Some ies) m n in
  match r with
  | Err e => Forall (fun x => snd x = e) L /\ dec_fails ies c o m n e (tags L) /\ (o = false -> L <> [])
  | _ => L = []
  end.
Proof.
  pose proof (decode_reports c o ies m n) as H. destruct (gtlvs_decode_r c o (Some ies) m n) as [[s|e|u] L]; try exact H. destruct H as [H1 H2].
  split; [exact H1|]. split; [exact H2|]. intros Ho HL. subst L. exact (fails_reported ies c o m n e _ H2 Ho eq_refl).
Qed.
Lemma encode_result (ies : list (coding V)) c cap buf slots : let '(r, L) := gtlvs_encode_r c cap (Some ies) buf slots in
  match r with
  | EErr _ e => Forall (fun x => snd x = e) L /\ enc_fails ies slots e (tags L) /\ L <> []
  | _ => L = []
  end.
Proof.
  pose proof (encode_reports c cap ies buf slots) as H. destruct (gtlvs_encode_r c cap (Some ies) buf slots) as [[s|b e|u] L]; try exact H. destruct H as [H1 H2].
  split; [exact H1|]. split; [exact H2|]. intros HL. subst L. exact (enc_fails_reported ies slots e _ H2 eq_refl).
Qed.

(* a missing mandatory IE *)
Lemma unord_items Tail c es r0 d rest :
  cfg_ok c -> tail_closed Tail -> Tail r0 -> Tail rest -> Forall (entry_local Tail c false) es ->
  unord_loop (V := V) (budget (d ++ rest) (lenN d)) c es (load_start (d ++ rest) (lenN d)) (init_slots es) =
  (let '(items, st) := parsed c d in s <- fold_place c es r0 (init_slots es) items ;; _ <- st ;; Ok s).
Proof.
  intros Hok Htc Hr0 Hrest Hloc.
  rewrite unord_loop_walk by (unfold ld_pos; cbn; lia).
  unfold ld_pos; cbn [ld_val load_start ld_mem ld_srclen]. rewrite dropN_0, N.sub_0_r.
  rewrite (walk_pitems Tail c es r0) by assumption. unfold parsed.
  rewrite budget_app.
  destruct (pitems (S (length d)) c d (lenN d)) as [l st]. apply bind_ext. intros s _. destruct st; reflexivity.
Qed.
Lemma mand_first last x post slots2 s (pre : list (coding V)) : forall idx slots1, idx + lenN (pre ++ x :: post) <= 4096 ->
  Forall2 (fun d s => low_of (head d) <= lenN s) pre slots1 -> lenN s < low_of (head x) ->
  check_mand_r last idx (map rentry_of (pre ++ x :: post)) (slots1 ++ s :: slots2) = return_error EINVAL (h_ti (head x)).
Proof.
  induction pre as [|d pre IH]; intros idx slots1 Hi HF Hx; inversion HF as [|? s1 ? sl Hs HF']; subst; cbn [app map check_mand_r rentry_of re_h].
  - unfold low_of in Hx. destruct (h_pres (head x)); [lia|]. destruct (h_multi (head x)) as [[mx mdn]|].
    + destruct (N.ltb_spec (lenN s) mdn); [reflexivity|lia].
    + destruct s; [|rewrite lenN_cons in Hx; lia]. cbn [app] in Hi. rewrite lenN_cons in Hi. unfold seen_max.
      destruct (N.leb_spec 4096 idx); [lia|reflexivity].
  - cbn [app] in Hi. rewrite lenN_cons in Hi. specialize (IH (idx + 1) sl ltac:(lia) HF' Hx). unfold low_of in Hs.
    destruct (h_pres (head d)); [exact IH|]. destruct (h_multi (head d)) as [[mx mdn]|].
    + destruct (N.ltb_spec (lenN s1) mdn); [lia|exact IH].
    + unfold seen_max. destruct (N.leb_spec 4096 idx); [lia|]. destruct s1; [rewrite lenN_nil in Hs; lia|]. exact IH.
Qed.
Lemma missing_reported Tail c (ies pre post : list (coding V)) x d items slots rest :
  cfg_ok c -> tail_closed Tail -> Tail rest ->
  Forall (all_leaves (leaf_local Tail)) ies -> Forall (all_cfgs cfg_ok) ies ->
  distinct_tags ies -> maxes_pos ies -> small_table ies ->
  parse c d (lenN d) = Ok items ->
  Forall2 (fun d s => lenN s <= cap_of (head d) /\
     Forall2 (fun it v => dec_coding d c false (snd it ++ rest) (lenN (snd it)) = Ok v) (items_for d items) s) ies slots ->
  ies = pre ++ x :: post -> Forall (fun d => low_of (head d) <= lenN (items_for d items)) pre -> lenN (items_for x items) < low_of (head x) ->
  gtlvs_decode_r c false (Some ies) (d ++ rest) (lenN d) = (Err EINVAL, [(h_ti (head x), EINVAL)]).
Proof.
  intros Hok Htc Hr Hl Hc Hd Hmx Hsm Hp H1 Hies Hpre Hx. cbn [gtlvs_decode_r decode_entries_r].
  assert (HL : Forall (entry_local Tail c false) (map entry_of ies)).
  { apply Forall_map. rewrite Forall_forall in *. intros y Hy. apply dec_coding_local; auto. }
  rewrite parse_parsed in Hp by assumption. pose proof (unord_items Tail c (map entry_of ies) rest d rest Hok Htc Hr Hr HL) as HU.
  destruct (parsed c d) as [items' st]. destruct st as [u|e|u]; try discriminate. cbn in Hp. inversion Hp; subst items'.
  assert (Hsm' : lenN (map entry_of ies) <= seen_max) by (unfold small_table, seen_max, lenN in *; rewrite map_length; exact Hsm).
  assert (Hs : fold_place c (map entry_of ies) rest (init_slots (map entry_of ies)) items = Ok slots).
  { apply fold_place_adds; [apply distinct_es, Hd|apply Forall_map; exact Hmx|exact Hsm'|unfold init_slots; apply map_length|].
    apply All3_init. eapply Forall2_impl; [|exact H1]. cbn. tauto. }
  rewrite Hs in HU. cbn [bind] in HU.
  unfold decode_unordered_r.
  assert (HG : gs (dec_fails ies c false (d ++ rest) (lenN d)) (unord_loop_r (budget (d ++ rest) (lenN d)) c (map rentry_of ies) (load_start (d ++ rest) (lenN d)) (map (fun _ => []) (map rentry_of ies)))).
  { apply unord_good; [|apply on_start]. apply Forall_forall. intros y _. apply value_good. }
  assert (HE : bind (fst (unord_loop_r (budget (d ++ rest) (lenN d)) c (map rentry_of ies) (load_start (d ++ rest) (lenN d)) (map (fun _ => []) (map rentry_of ies)))) (fun x => Ok (fst x)) = Ok slots).
  { rewrite unord_erase. etransitivity; [|exact HU]. unfold init_slots. rewrite !map_map.
    apply unord_same. clear. induction ies as [|y ies IH]; cbn [map]; constructor; [|exact IH]. split; [reflexivity|]. intros. apply coding_erase. }
  destruct (unord_loop_r _ c (map rentry_of ies) _ _) as [[[sl last]|e|u'] L]; cbn [fst bind gs] in HE, HG; try discriminate. subst L. injection HE as ->.
  cbn [rbind fst snd app]. rewrite Hies in H1. apply Forall2_app_inv_l in H1. destruct H1 as (sl1 & sl2' & HF1 & HF2 & ->).
  inversion HF2 as [|? s ? sl2 [_ Hsx] HF3]; subst.
  rewrite (mand_first last x post sl2 s pre 0 sl1).
  - reflexivity.
  - unfold small_table in Hsm. lia.
  - clear - HF1 Hpre. revert sl1 HF1. induction Hpre as [|y pre Hy _ IH]; intros sl1 HF1; inversion HF1 as [|? s ? sl [_ H] HF]; subst; constructor; [|apply IH, HF].
    apply Forall2_length in H. unfold lenN, item in *. lia.
  - apply Forall2_length in Hsx. unfold lenN, item in *. lia.
Qed.
End Proofs.

(* ---------------------------------------------------------------- PFCP *)
Lemma pfcp_reports t ies m n cap buf slots : msg_table t = Some ies ->
  (let '(r, L) := gtlvs_decode_r t16l16v false (msg_table t) m n in
     r = decode_tlv t m n /\ (L <> [] <-> exists e, r = Err e) /\ forall x, In x L -> r = Err (snd x))
  /\ (let '(r, L) := gtlvs_encode_r t16l16v cap (msg_table t) buf slots in
     r = encode_tlv cap buf t slots /\ (L <> [] <-> exists b e, r = EErr b e) /\ forall x, In x L -> exists b, r = EErr b (snd x)).
Proof.
  intros Ht. unfold decode_tlv, encode_tlv. rewrite Ht. split.
  - pose proof (decode_erase t16l16v false (Some ies) m n) as HE. pose proof (decode_result ies t16l16v false m n) as HR.
    destruct (gtlvs_decode_r t16l16v false (Some ies) m n) as [r L]. split; [exact HE|]. clear HE. destruct r as [s|e|u].
    + subst L. split; [split; [intros H; contradiction|intros [e H]; discriminate]|intros x []].
    + destruct HR as (H1 & _ & H3). split; [split; [intros _; exists e; reflexivity|intros _; apply H3; reflexivity]|].
      intros x Hx. rewrite Forall_forall in H1. rewrite (H1 x Hx). reflexivity.
    + subst L. split; [split; [intros H; contradiction|intros [e H]; discriminate]|intros x []].
  - pose proof (encode_erase t16l16v cap (Some ies) buf slots) as HE. pose proof (encode_result ies t16l16v cap buf slots) as HR.
    destruct (gtlvs_encode_r t16l16v cap (Some ies) buf slots) as [r L]. split; [exact HE|]. clear HE. destruct r as [s|b e|u].
    + subst L. split; [split; [intros H; contradiction|intros (b & e & H); discriminate]|intros x []].
    + destruct HR as (H1 & _ & H3). split; [split; [intros _; exists b, e; reflexivity|intros _; exact H3]|].
      intros x Hx. rewrite Forall_forall in H1. exists b. rewrite (H1 x Hx). reflexivity.
    + subst L. split; [split; [intros H; contradiction|intros (b & e & H); discriminate]|intros x []].
Qed.
Lemma missing_example : cfg_ok t8l8v /\ tail_closed AnyTail /\ Forall (all_leaves (leaf_local AnyTail)) ex_table
  /\ Forall (all_cfgs cfg_ok) ex_table /\ table_ok ex_table
  /\ parse t8l8v [1;2;0;7] 4 = Ok [(ti_of_tag 1, [0;7])]
  /\ Forall2 (fun d s => lenN s <= cap_of (head d) /\
       Forall2 (fun it v => dec_coding d t8l8v false (snd it ++ []) (lenN (snd it)) = Ok v) (items_for d [(ti_of_tag 1, [0;7])]) s) ex_table [[VLeaf (TInt 7)]; []; []; []]
  /\ exists pre x post, ex_table = pre ++ x :: post /\ Forall (fun d => low_of (head d) <= lenN (items_for d [(ti_of_tag 1, [0;7])])) pre
     /\ lenN (items_for x [(ti_of_tag 1, [0;7])]) < low_of (head x) /\ h_ti (head x) = ti_of_tag 3.
Proof.
  split; [exact t8l8v_ok|]. split; [exact AnyTail_closed|]. split; [exact ex_local|]. split; [apply ex_cfgs|]. split; [exact (proj1 ex_table_ok)|].
  split; [vm_compute; reflexivity|]. split.
  - constructor; [split; [vm_compute; discriminate|]; constructor; [vm_compute; reflexivity|constructor]|].
    constructor; [split; [vm_compute; discriminate|constructor]|]. constructor; [split; [vm_compute; discriminate|constructor]|].
    constructor; [split; [vm_compute; discriminate|constructor]|constructor].
  - exists [CLeaf (hd_m 1) l_u16; CLeaf (hd_o 2) l_u16], (CLeaf (hd_multi 3 4 1) l_u16), [CNest (hd_o 4) None OrdSame ex_inner].
    split; [reflexivity|]. split; [|split; [vm_compute; reflexivity|reflexivity]].
    constructor; [vm_compute; discriminate|]. constructor; [vm_compute; discriminate|constructor].
Qed.
