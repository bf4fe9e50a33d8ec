(* LeafMapProofs.v -- decoding and encoding (DecEncModel.v) do not look into the values of single IEs: changing the representation of
   these values changes the result accordingly. Used for C108. *)
From Verif Require Import Base BaseProofs GtlvModel DecEncModel DecEncProofs MemModel MemSpec MemProofs.

Section Map.
Context {K V W : Type}.
Variable f : V -> W.
Fixpoint vmap (v : val V) : val W := match v with VLeaf x => VLeaf (f x) | VStruct l => VStruct (map (map vmap) l) end.
Notation slmap := (map (map vmap)).

Lemma nonempty_map (s : slot V) : nonempty (map vmap s) = nonempty s.
Proof. destruct s; reflexivity. Qed.
Lemma lenN_map (s : slot V) : lenN (map vmap s) = lenN s.
Proof. unfold lenN. rewrite map_length. reflexivity. Qed.

(* ---------------------------------------------------------------- decoding *)
Definition entry_rel (e : entry V) (e' : entry W) : Prop := e_h e' = e_h e /\ forall c o m len, e_dec e' c o m len = (v <- e_dec e c o m len ;; Ok (vmap v)).
Lemma place_map c es es' : Forall2 entry_rel es es' -> forall idx allowed slots ti m len,
  place c es' idx allowed (slmap slots) ti m len = (r <- place c es idx allowed slots ti m len ;; Ok (slmap r)).
Proof.
  induction 1 as [|e e' es es' [Eh Ed] HF IH]; intros idx allowed slots ti m len.
  - cbn [place]. destruct (allowed =? 0); reflexivity.
  - destruct slots as [|s slots]; [cbn [place map]; destruct (allowed =? 0); reflexivity|]. cbn [map place]. rewrite Eh, nonempty_map, lenN_map, !IH, Ed.
    destruct (negb _). { destruct (place _ _ _ _ _ _ _ _); reflexivity. }
    destruct (_ || _). { destruct (place _ _ _ _ _ _ _ _); reflexivity. }
    destruct (_ && (seen_max <=? idx)); [reflexivity|]. destruct (_ && nonempty s). { destruct (place _ _ _ _ _ _ _ _); reflexivity. }
    destruct (e_dec e c false m len) as [v|x|u]; [|reflexivity|reflexivity]. cbn [bind]. destruct (seen_max <=? idx); [reflexivity|]. cbn [bind map]. rewrite map_app. reflexivity.
Qed.
Lemma unord_map c es es' : Forall2 entry_rel es es' -> forall n g slots, unord_loop n c es' g (slmap slots) = (r <- unord_loop n c es g slots ;; Ok (slmap r)).
Proof.
  intros HF. induction n as [|n IH]; intros g slots; [reflexivity|]. cbn [unord_loop]. destruct (load_next c g) as [g' [x|x|x]]; try reflexivity.
  destruct (ld_val g') as [v|]; [|reflexivity]. rewrite (place_map c es es' HF). destruct (place c es 0 0 slots _ _ _) as [sl|x1|x1]; [|reflexivity|reflexivity]. cbn [bind]. apply IH.
Qed.
Lemma mand_map es es' : Forall2 entry_rel es es' -> forall idx slots, check_mand idx es' (slmap slots) = check_mand idx es slots.
Proof.
  induction 1 as [|e e' es es' [Eh Ed] HF IH]; intros idx slots; [reflexivity|]. destruct slots as [|s slots]; [reflexivity|]. cbn [map check_mand]. rewrite Eh, nonempty_map, lenN_map, IH. reflexivity.
Qed.
Lemma empty_map es es' : Forall2 entry_rel es es' -> map (fun _ : entry W => []) es' = slmap (map (fun _ : entry V => ([] : slot V)) es).
Proof. induction 1 as [|e e' es es' _ HF IH]; [reflexivity|]. cbn [map]. rewrite IH. reflexivity. Qed.
Lemma ord_map c : forall n mode es es' g slots, Forall2 entry_rel es es' -> ord_loop n mode c es' g (slmap slots) = (r <- ord_loop n mode c es g slots ;; Ok (slmap r)).
Proof.
  induction n as [|n IH]; intros mode es es' g slots HF; [reflexivity|]. inversion HF as [|e e' es1 es1' [Eh Ed] HF1]; subst; [destruct mode; reflexivity|].
  destruct slots as [|s slots]; [destruct mode; reflexivity|]. cbn [map].
  assert (R : forall (x : slot V) mo g', (r <- ord_loop n mo c es1' g' (slmap slots) ;; Ok (map vmap x :: r)) = (r <- (r <- ord_loop n mo c es1 g' slots ;; Ok (x :: r)) ;; Ok (slmap r))).
  { intros x mo g'. rewrite (IH mo es1 es1' g' slots HF1). destruct (ord_loop n mo c es1 g' slots); reflexivity. }
  assert (Q : forall mo g' (x : slot V), ord_loop n mo c (e' :: es1') g' (map vmap x :: slmap slots) = (r <- ord_loop n mo c (e :: es1) g' (x :: slots) ;; Ok (slmap r))).
  { intros mo g' x. exact (IH mo (e :: es1) (e' :: es1') g' (x :: slots) HF). }
  assert (D : (if match h_multi (e_h e) with Some (mx, _) => mx <=? lenN s | None => false end then UB OobWrite else
        v <- (v <- e_dec e c true (match ld_val g with Some v => dropN v (ld_mem g) | None => [] end) (ld_len g) ;; Ok (vmap v)) ;;
        let s' := match h_multi (e_h e) with Some _ => map vmap s ++ [v] | None => [v] end in
        match h_multi (e_h e) with
        | None => r <- ord_loop n MOuter c es1' g (slmap slots) ;; Ok (s' :: r)
        | Some _ =>
          match load_peek_tag c g with
          | UB u => UB u
          | Err _ => r <- ord_loop n MOuter c es1' g (slmap slots) ;; Ok (s' :: r)
          | Ok peek =>
            if negb (ti_match peek (ld_ti g)) then r <- ord_loop n MOuter c es1' g (slmap slots) ;; Ok (s' :: r)
            else
              match load_next c g with
              | (_, Err e) => Err e
              | (_, UB u) => UB u
              | (g', Ok _) => ord_loop n MInner c (e' :: es1') g' (s' :: slmap slots)
              end
          end
        end) = (r <- (if match h_multi (e_h e) with Some (mx, _) => mx <=? lenN s | None => false end then UB OobWrite else
        v <- e_dec e c true (match ld_val g with Some v => dropN v (ld_mem g) | None => [] end) (ld_len g) ;;
        let s' := match h_multi (e_h e) with Some _ => s ++ [v] | None => [v] end in
        match h_multi (e_h e) with
        | None => r <- ord_loop n MOuter c es1 g slots ;; Ok (s' :: r)
        | Some _ =>
          match load_peek_tag c g with
          | UB u => UB u
          | Err _ => r <- ord_loop n MOuter c es1 g slots ;; Ok (s' :: r)
          | Ok peek =>
            if negb (ti_match peek (ld_ti g)) then r <- ord_loop n MOuter c es1 g slots ;; Ok (s' :: r)
            else
              match load_next c g with
              | (_, Err e) => Err e
              | (_, UB u) => UB u
              | (g', Ok _) => ord_loop n MInner c (e :: es1) g' (s' :: slots)
              end
          end
        end) ;; Ok (slmap r))).
  { destruct (match h_multi (e_h e) with Some (mx, _) => mx <=? lenN s | None => false end); [reflexivity|].
    destruct (e_dec e c true _ (ld_len g)) as [v|x|u]; [|reflexivity|reflexivity]. cbn [bind]. cbv zeta.
    destruct (h_multi (e_h e)) as [[mx q]|]; [|exact (R [v] MOuter g)].
    replace (map vmap s ++ [vmap v]) with (map vmap (s ++ [v])) by (rewrite map_app; reflexivity).
    destruct (load_peek_tag c g) as [p|x|u]; [|exact (R (s ++ [v]) MOuter g)|reflexivity]. destruct (negb (ti_match p (ld_ti g))); [exact (R (s ++ [v]) MOuter g)|].
    destruct (load_next c g) as [g' [x|x|x]]; [exact (Q MInner g' (s ++ [v]))|reflexivity|reflexivity]. }
  cbn [ord_loop]. rewrite Eh, lenN_map, !Ed. cbv zeta in D |- *. destruct mode.
  - destruct (load_next_by_tag_inst c g (h_ti (e_h e))) as [g' [x|x|x]]; [exact (Q MInner g' s)| |reflexivity].
    destruct x; try reflexivity. destruct (_ && _); [reflexivity|]. destruct (h_pres (e_h e)); [exact (R [] MOuter g)|exact (R s MOuter g)].
  - destruct (match h_multi (e_h e) with Some (mx, _) => mx <=? lenN s | None => false end) eqn:F; [exact (R s MJump g)|exact D].
  - destruct (ti_match (ld_ti g) (h_ti (e_h e))); [exact D|exact (R s MJump g)].
Qed.
Lemma entries_map c o es es' m len : Forall2 entry_rel es es' -> decode_entries c o es' m len = (r <- decode_entries c o es m len ;; Ok (slmap r)).
Proof.
  intros HF. unfold decode_entries, decode_ordered, decode_unordered. rewrite (empty_map es es' HF). destruct o.
  - rewrite <- (Forall2_length _ _ _ HF). apply ord_map. exact HF.
  - rewrite (unord_map c es es' HF). destruct (unord_loop _ c es _ _) as [sl|x|u]; [|reflexivity|reflexivity]. cbn [bind]. rewrite (mand_map es es' HF). destruct (check_mand 0 es sl); reflexivity.
Qed.

Variables (la : K -> leaf V) (lb : K -> leaf W).
Hypothesis Hdec : forall k, lf_dec (lb k) = option_map (fun d m len => x <- d m len ;; Ok (f x)) (lf_dec (la k)).
Lemma erase_rel d : entry_rel (mkEntry (head (erase la d)) (dec_coding (erase la d))) (mkEntry (head (erase lb d)) (dec_coding (erase lb d))).
Proof.
  induction d as [h k|h sz nc o ies IH] using mcoding_ind'.
  - split; [reflexivity|]. intros c o m len. cbn [e_dec erase dec_coding]. rewrite Hdec. destruct (lf_dec (la k)) as [d|]; [|reflexivity]. cbn [option_map]. destruct (d m len); reflexivity.
  - split; [reflexivity|]. intros c po m len. cbn [e_dec erase dec_coding]. rewrite !map_map.
    rewrite (entries_map _ _ (map (fun x => mkEntry (head (erase la x)) (dec_coding (erase la x))) ies)).
    + destruct (decode_entries _ _ _ m len); reflexivity.
    + clear - IH. induction IH as [|d ies Hd HF IHl]; constructor; assumption.
Qed.
Theorem decode_map c o ies m len :
  gtlvs_decode c o (Some (map (erase lb) ies)) m len = (r <- gtlvs_decode c o (Some (map (erase la) ies)) m len ;; Ok (slmap r)).
Proof.
  cbn [gtlvs_decode]. rewrite !map_map. apply entries_map. induction ies as [|d ies IH]; constructor; [apply erase_rel|exact IH].
Qed.

(* ---------------------------------------------------------------- encoding *)
(* the same octets and code, or both do not fit *)
Hypothesis Henc : forall k, match lf_enc (la k), lf_enc (lb k) with
  | Some g, Some g' => forall room x, g' room (f x) = g room x \/ (room < lenN (fst (g room x)) /\ room < lenN (fst (g' room (f x))))
  | None, None => True | _, _ => False end.
Definition eentry_rel (e : eentry V) (e' : eentry W) : Prop := ee_h e' = ee_h e /\ forall c cap buf v, ee_enc e' c cap buf (vmap v) = ee_enc e c cap buf v.
Lemma enc_vals_map c e e' : eentry_rel e e' -> forall vals p i, enc_vals c e' p i (map vmap vals) = enc_vals c e p i vals.
Proof.
  intros [Eh Ed]. induction vals as [|v vals IH]; intros p i; [reflexivity|]. cbn [map enc_vals]. rewrite Eh. destruct (put_tli c p (h_ti (ee_h e)) 0) as [p1 [x|x|x]]; [| |reflexivity].
  all: destruct (match h_multi (ee_h e) with Some (mx, _) => mx <=? i | None => false end); [reflexivity|]; rewrite Ed; destruct (ee_enc e c (pt_cap p1) (pt_buf p1) v); try reflexivity.
  all: destruct (put_update_tl c _) as [p2 [y|y|y]]; try reflexivity; apply IH.
Qed.
Lemma enc_entries_map c es es' : Forall2 eentry_rel es es' -> forall p slots, enc_entries c es' p (slmap slots) = enc_entries c es p slots.
Proof.
  induction 1 as [|e e' es es' He HF IH]; intros p slots; [reflexivity|]. destruct slots as [|s slots]; [reflexivity|]. cbn [map enc_entries].
  assert (T : to_encode (ee_h e') (map vmap s) = map vmap (to_encode (ee_h e) s)) by (unfold to_encode; rewrite (proj1 He); destruct (h_multi (ee_h e)); [reflexivity|destruct s; reflexivity]).
  rewrite T, (enc_vals_map c e e' He). destruct (enc_vals c e p 0 _); [apply IH|reflexivity|reflexivity].
Qed.
Lemma erase_erel d : eentry_rel (mkEEntry (head (erase la d)) (enc_coding (erase la d))) (mkEEntry (head (erase lb d)) (enc_coding (erase lb d))).
Proof.
  induction d as [h k|h sz nc o ies IH] using mcoding_ind'.
  - split; [reflexivity|]. intros c cap buf v. cbn [ee_enc erase enc_coding]. specialize (Henc k). destruct v as [x|sl]; [|reflexivity]. cbn [vmap].
    destruct (lf_enc (la k)) as [g|], (lf_enc (lb k)) as [g'|]; try contradiction; [|reflexivity].
    destruct (Henc (tailroom buf cap) x) as [E|[E1 E2]]; [rewrite E; reflexivity|]. destruct (g (tailroom buf cap) x) as [bs e], (g' (tailroom buf cap) (f x)) as [bs' e']. cbn [fst] in *.
    apply N.ltb_lt in E1, E2. rewrite E1, E2. reflexivity.
  - split; [reflexivity|]. intros c cap buf v. cbn [ee_enc erase enc_coding]. destruct v as [x|sl]; [reflexivity|]. cbn [vmap]. unfold enc_list. rewrite !map_map.
    rewrite (enc_entries_map _ (map (fun x => mkEEntry (head (erase la x)) (enc_coding (erase la x))) ies)); [reflexivity|].
    clear - IH. induction IH as [|d ies Hd HF IHl]; constructor; assumption.
Qed.
Theorem encode_map c cap ies buf slots : gtlvs_encode c cap (Some (map (erase lb) ies)) buf (slmap slots) = gtlvs_encode c cap (Some (map (erase la) ies)) buf slots.
Proof.
  cbn [gtlvs_encode]. unfold enc_list. rewrite !map_map. rewrite (enc_entries_map c (map (fun d => eentry_of (erase la d)) ies)); [reflexivity|].
  clear - Henc. induction ies as [|d ies IH]; constructor; [apply erase_erel|exact IH].
Qed.

(* ---------------------------------------------------------------- memory *)
Variable lk : K -> mleaf.
Variable ld : K -> list N -> V.
Variable ld' : K -> list N -> W.
Variable be : bool.
Definition strict_rel (d : mcoding K) : Prop := forall a m v, val_held lk ld be true d a m v -> val_held lk ld' be false d a m (vmap v) -> val_held lk ld' be true d a m (vmap v).
Lemma slot_strict d a m s : strict_rel d -> slot_held be true (mhd d) (val_held lk ld be true d) a m s -> slot_held be false (mhd d) (val_held lk ld' be false d) a m (map vmap s) ->
  slot_held be true (mhd d) (val_held lk ld' be true d) a m (map vmap s).
Proof.
  intros HR [H1 H2] [G1 G2]. split; [exact G1|]. destruct (h_multi (mh_h (mhd d))) as [[mx q]|].
  - destruct H2 as [_ H2], G2 as [G0 G2]. split; [exact G0|]. intros i v Hi Hm. pose proof (G2 i v Hi Hm) as X. rewrite nth_error_map in Hi. destruct (nth_error s i) as [x|] eqn:E; [|discriminate]. injection Hi as <-.
    exact (HR _ _ _ (H2 i x E Hm) X).
  - destruct s as [|v [|w s]]; [exact H2|exact (HR _ _ _ H2 G2)|exact G2].
Qed.
Lemma all_strict d : strict_rel d.
Proof.
  induction d as [h k|h sz nc o ies IH] using mcoding_ind'; intros a m v.
  - destruct v; intros H G; exact G.
  - destruct v as [x|sl]; [intros []|]. intros H G. cbn [vmap] in *. apply val_held_nest in H. apply val_held_nest in G. apply val_held_nest.
    clear - IH H G. unfold struct_held in *. revert sl H G. induction IH as [|d ies Hd HF IHl]; intros sl H G; inversion H; subst; [constructor|]. cbn [map] in *. inversion G; subst. constructor; [apply slot_strict; assumption|]. apply IHl; assumption.
Qed.
Theorem strict_map ies a m slots : struct_held lk ld be true ies a m slots -> struct_held lk ld' be false ies a m (slmap slots) -> struct_held lk ld' be true ies a m (slmap slots).
Proof.
  unfold struct_held. intros H. induction H as [|d s ies slots Hs HS IH]; intros G; [constructor|]. cbn [map] in *. inversion G; subst. constructor; [apply slot_strict; [apply all_strict|assumption|assumption]|apply IH; assumption].
Qed.
End Map.
