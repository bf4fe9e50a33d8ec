(* PropertiesGtlv.v -- the property theorems C01 .. C17 and C81 (libosmo-gtlv). Proofs are in the *Proofs.v files; the
   vocabulary of the statements is in GtlvModel, GtlvSpec, DecEncModel and DecEncSpec. *)
From Verif Require Import Base GtlvModel GtlvSpec GtlvProofs DecEncModel DecEncSpec DecEncProofs DecOrdProofs DecCharProofs
  RtProofs OrdMandProofs OrdCharProofs EncShapeProofs WfProofs TestTables GtlvInst.

(* ---------------------------------------------------------------- C01 *)
Theorem C01_cmp_zero_iff_same a b :
  tag_inst_cmp a b = 0%Z <->
  match a, b with
  | None, None => True
  | Some x, Some y => ti_tag x = ti_tag y /\ ti_ipres x = ti_ipres y /\ (ti_ipres x = true -> ti_inst x = ti_inst y)
  | _, _ => False
  end.
Proof. exact (tag_inst_cmp_0 a b). Qed.
Print Assumptions C01_cmp_zero_iff_same.
Theorem C01_cmp_antisymmetric a b : tag_inst_cmp b a = (- tag_inst_cmp a b)%Z.
Proof. exact (tag_inst_cmp_antisym a b). Qed.
Print Assumptions C01_cmp_antisymmetric.
Theorem C01_cmp_transitive a b d : (tag_inst_cmp a b <= 0 -> tag_inst_cmp b d <= 0 -> tag_inst_cmp a d <= 0)%Z.
Proof. exact (tag_inst_cmp_trans a b d). Qed.
Print Assumptions C01_cmp_transitive.
(* the order is: NULL first, by tag, without instance before with instance, by instance *)
Theorem C01_cmp_order a b :
  (tag_inst_cmp a b < 0)%Z <->
  match a, b with
  | None, Some _ => True
  | Some x, Some y => ti_tag x < ti_tag y \/ (ti_tag x = ti_tag y /\
      ((ti_ipres x = false /\ ti_ipres y = true) \/ (ti_ipres x = true /\ ti_ipres y = true /\ ti_inst x < ti_inst y)))
  | _, None => False
  end.
Proof. exact (tag_inst_cmp_lt a b). Qed.
Print Assumptions C01_cmp_order.
Example C01_example :
  tag_inst_cmp (Some (mkTi 5 true 1)) (Some (mkTi 5 true 2)) = (-1)%Z /\ tag_inst_cmp (Some (mkTi 5 false 1)) (Some (mkTi 5 false 2)) = 0%Z.
Proof. split; reflexivity. Qed.

(* ---------------------------------------------------------------- C02, C03 *)
Theorem C02_t8l8v_store_load avail ti len :
  (255 < ti_tag ti /\ cfg_store t8l8v avail ti len = Err EINVAL)
  \/ (ti_tag ti <= 255 /\ 255 < len /\ cfg_store t8l8v avail ti len = Err EMSGSIZE)
  \/ (ti_tag ti <= 255 /\ len <= 255 /\ avail < 2 /\ cfg_store t8l8v avail ti len = Err ENOSPC)
  \/ (ti_tag ti <= 255 /\ len <= 255 /\ 2 <= avail /\ cfg_store t8l8v avail ti len = Ok [ti_tag ti; len]
      /\ forall rest left, cfg_load t8l8v ([ti_tag ti; len] ++ rest) left = Ok (ti_of_tag (ti_tag ti), len, 2)).
Proof. exact (t8l8v_store_cases avail ti len). Qed.
Print Assumptions C02_t8l8v_store_load.
Theorem C03_t16l16v_store_load avail ti len :
  (65535 < ti_tag ti /\ cfg_store t16l16v avail ti len = Err EINVAL)
  \/ (ti_tag ti <= 65535 /\ 65535 < len /\ cfg_store t16l16v avail ti len = Err EMSGSIZE)
  \/ (ti_tag ti <= 65535 /\ len <= 65535 /\ avail < 4 /\ cfg_store t16l16v avail ti len = Err ENOSPC)
  \/ (ti_tag ti <= 65535 /\ len <= 65535 /\ 4 <= avail /\
      let h := [ti_tag ti / 256; ti_tag ti mod 256; len / 256; len mod 256] in
      cfg_store t16l16v avail ti len = Ok h /\ bytes_ok h
      /\ forall rest left, cfg_load t16l16v (h ++ rest) left = Ok (ti_of_tag (ti_tag ti), len, 4)).
Proof. exact (t16l16v_store_cases avail ti len). Qed.
Print Assumptions C03_t16l16v_store_load.
Example C03_example : cfg_store t16l16v 4 (ti_of_tag 258) 772 = Ok [1; 2; 3; 4].
Proof. reflexivity. Qed.

(* ---------------------------------------------------------------- C04 *)
(* For any format [c] that writes its headers as [hdr] for all (tag, length) in [rep]: *)
Theorem C04_put_load_roundtrip c rep hdr items p :
  cfg_ok c -> cfg_rt c rep hdr -> rep_items rep items ->
  lenN (pt_buf p) + lenN (ser hdr items) <= pt_cap p ->
  exists p', put_items c p items = Ok p'
    /\ pt_buf p' = pt_buf p ++ ser hdr items
    /\ parse c (dropN (lenN (pt_buf p)) (pt_buf p')) (lenN (pt_buf p') - lenN (pt_buf p)) = Ok items.
Proof. exact (put_load_roundtrip c rep hdr items p). Qed.
Print Assumptions C04_put_load_roundtrip.
(* the stock formats and the formats of the project's tests are such formats *)
Theorem C04_formats :
  (cfg_ok t8l8v /\ cfg_rt t8l8v rep_t8l8v hdr_t8l8v) /\ (cfg_ok t16l16v /\ cfg_rt t16l16v rep_t16l16v hdr_t16l16v)
  /\ (cfg_ok tliv /\ cfg_rt tliv rep_tliv hdr_tliv) /\ (cfg_ok txlxv /\ cfg_rt txlxv rep_txlxv hdr_txlxv).
Proof.
  exact (conj (conj t8l8v_ok t8l8v_rt) (conj (conj t16l16v_ok t16l16v_rt) (conj (conj tliv_ok tliv_rt) (conj txlxv_ok txlxv_rt)))).
Qed.
Print Assumptions C04_formats.
Definition C04_items : list item := [(ti_of_tag 42, [66]); (ti_of_tag 2, [1; 1]); (ti_of_tag 2, [])].
Example C04_example : rep_items rep_t8l8v C04_items /\ ser hdr_t8l8v C04_items = [42; 1; 66; 2; 2; 1; 1; 2; 0].
Proof. split; [|reflexivity]. repeat constructor; eexists; (split; [reflexivity|]); split; vm_compute; reflexivity. Qed.

(* ---------------------------------------------------------------- C05 *)
Theorem C05_load_next_safe_progress c m g g' rc :
  cfg_ok c -> reach c m g -> load_next c g = (g', rc) ->
  (forall u, rc <> UB u) /\
  (rc = Ok tt ->
     match ld_val g' with
     | None => ld_pos g = lenN m
     | Some v => ld_pos g + cfg_min c <= v /\ v + ld_len g' <= lenN m
     end).
Proof. exact (load_next_reach c m g g' rc). Qed.
Print Assumptions C05_load_next_safe_progress.
(* after an error, all further calls fail: an iteration does not resume behind bad data, nor start again *)
Theorem C05_error_is_final c g g' e : load_tl_total c -> load_next c g = (g', Err e) -> exists e', load_next c g' = (g', Err e').
Proof. exact (fun _ => load_next_sticky c g g' e). Qed.
Print Assumptions C05_error_is_final.
Theorem C05_formats : load_tl_total t8l8v /\ load_tl_total t16l16v.
Proof. exact (conj t8l8v_total t16l16v_total). Qed.
Print Assumptions C05_formats.
(* iteration ends within len / min + 1 calls ([parse_fuel]), without undefined behaviour *)
Theorem C05_iteration_terminates c m :
  cfg_ok c ->
  load_all (parse_fuel c m) c (load_start m (lenN m)) = parse c m (lenN m)
  /\ forall u, parse c m (lenN m) <> UB u.
Proof. exact (parse_terminates c m). Qed.
Print Assumptions C05_iteration_terminates.
Example C05_example : (let g := mkLoad [1; 1; 7; 2; 5; 0] 6 (ti_of_tag 1) 1 (Some 2) in let g' := mkLoad [1; 1; 7; 2; 5; 0] 6 (ti_of_tag 2) 5 (Some 5) in
    reach t8l8v [1; 1; 7; 2; 5; 0] g /\ load_next t8l8v g = (g', Err EBADMSG) /\ load_next t8l8v g' = (g', Err ENOSPC))
  /\ parse t8l8v [1; 1; 7; 2; 5; 0] 6 = Err EBADMSG /\ parse t8l8v [1; 1; 7; 2; 1; 0] 6 = Ok [(ti_of_tag 1, [7]); (ti_of_tag 2, [0])].
Proof. split; [split; [|split; reflexivity]|split; vm_compute; reflexivity]. eapply reach_next; [apply reach_start|vm_compute; reflexivity|left; reflexivity]. Qed.

(* ---------------------------------------------------------------- C06 *)
Theorem C06_parse_exact_t8l8v m items :
  bytes_ok m -> (parse t8l8v m (lenN m) = Ok items <-> rep_items rep_t8l8v items /\ m = ser hdr_t8l8v items).
Proof. exact (parse_iff t8l8v rep_t8l8v hdr_t8l8v m items t8l8v_ok t8l8v_rt t8l8v_inv). Qed.
Print Assumptions C06_parse_exact_t8l8v.
Theorem C06_parse_exact_t16l16v m items :
  bytes_ok m -> (parse t16l16v m (lenN m) = Ok items <-> rep_items rep_t16l16v items /\ m = ser hdr_t16l16v items).
Proof. exact (parse_iff t16l16v rep_t16l16v hdr_t16l16v m items t16l16v_ok t16l16v_rt t16l16v_inv). Qed.
Print Assumptions C06_parse_exact_t16l16v.
(* a format with instance values (of the test suite) *)
Theorem C06_parse_exact_tliv m items :
  bytes_ok m -> (parse tliv m (lenN m) = Ok items <-> rep_items rep_tliv items /\ m = ser hdr_tliv items).
Proof. exact (parse_iff tliv rep_tliv hdr_tliv m items tliv_ok tliv_rt tliv_inv). Qed.
Print Assumptions C06_parse_exact_tliv.
(* reading a header of that format fails only if its instance is cut off *)
Theorem C06_tliv_header_error m left e : 2 <= left -> left <= lenN m ->
  (cfg_load tliv m left = Err e <-> e = ENOSPC /\ left = 2 /\ exists t r, m = t :: r /\ In t [5; 7; 9]).
Proof. exact (tliv_short m left e). Qed.
Print Assumptions C06_tliv_header_error.
Example C06_example : bytes_ok [0; 1; 0; 1; 7] /\ parse t16l16v [0; 1; 0; 1; 7] 5 = Ok [(ti_of_tag 1, [7])]
  /\ parse tliv [5; 1; 3; 7; 1; 0] 6 = Ok [(mkTi 5 true 3, [7]); (ti_of_tag 1, [])].
Proof. split; [repeat constructor|split; vm_compute; reflexivity]. Qed.

(* ---------------------------------------------------------------- C07 *)
Theorem C07_peek_agrees_with_next c g :
  match load_next c g with
  | (g', Ok _) =>
    match ld_val g' with
    | Some _ => load_peek_tag c g = Ok (ld_ti g')
    | None => load_peek_tag c g = Err ENOENT
    end
  | (_, UB u) => load_peek_tag c g = UB u
  | (_, Err _) => load_peek_tag c g <> Err ENOENT
  end.
Proof. exact (peek_next c g). Qed.
Print Assumptions C07_peek_agrees_with_next.
Example C07_example : load_peek_tag t8l8v (load_start [1; 1; 7] 3) = Ok (ti_of_tag 1) /\ load_peek_tag t8l8v (load_start [] 0) = Err ENOENT.
Proof. split; reflexivity. Qed.

(* ---------------------------------------------------------------- C08 *)
Theorem C08_by_tag_unchanged_on_error c g ti g' rc :
  load_next_by_tag_inst c g ti = (g', rc) -> rc <> Ok tt -> g' = g.
Proof. exact (by_tag_unchanged c g ti g' rc). Qed.
Print Assumptions C08_by_tag_unchanged_on_error.
(* on any data: success = the first matching item behind complete non-matching ones; -ENOENT = only non-matching items
   up to the end; any other error = the error of the first malformed item, reached over non-matching ones *)
Theorem C08_by_tag_first c g ti :
  match load_next_by_tag_inst c g ti with
  | (g', Ok _) => exists g1 v, skips c ti g g1 /\ load_next c g1 = (g', Ok tt) /\ ld_val g' = Some v /\ ti_match (ld_ti g') ti = true
  | (g', Err ENOENT) => g' = g /\ exists g1 g2, skips c ti g g1 /\
      (load_next c g1 = (g2, Ok tt) /\ ld_val g2 = None \/ snd (load_next c g1) = Err ENOENT)
  | (g', Err e) => g' = g /\ exists g1, skips c ti g g1 /\ snd (load_next c g1) = Err e
  | (_, UB _) => True
  end.
Proof. exact (load_next_by_tag_first c g ti). Qed.
Print Assumptions C08_by_tag_first.
Theorem C08_by_tag_no_ub c m g ti u : cfg_ok c -> reach c m g -> snd (load_next_by_tag_inst c g ti) <> UB u.
Proof. exact (by_tag_reach c m g ti u). Qed.
Print Assumptions C08_by_tag_no_ub.
(* on well-formed data, in terms of the items that follow *)
Theorem C08_by_tag_items c rep hdr ti g pre items rest :
  cfg_rt c rep hdr -> 1 <= cfg_min c -> rep_items rep items ->
  ld_mem g = pre ++ ser hdr items ++ rest ->
  ld_pos g = lenN pre -> ld_srclen g = lenN pre + lenN (ser hdr items) ->
  (Forall (fun it => ti_match (fst it) ti = false) items -> load_next_by_tag_inst c g ti = (g, Err ENOENT))
  /\ (forall a x b, items = a ++ x :: b -> Forall (fun it => ti_match (fst it) ti = false) a ->
        ti_match (fst x) ti = true ->
        exists g', load_next_by_tag_inst c g ti = (g', Ok tt)
          /\ ld_mem g' = ld_mem g /\ ld_srclen g' = ld_srclen g
          /\ ld_ti g' = fst x /\ ld_len g' = lenN (snd x)
          /\ ld_val g' = Some (lenN pre + lenN (ser hdr a) + lenN (hdr (fst x) (lenN (snd x))))).
Proof. exact (by_tag_items c rep hdr ti g pre items rest). Qed.
Print Assumptions C08_by_tag_items.
Example C08_example :
  load_next_by_tag t8l8v (load_start [1; 1; 7; 2; 1; 8] 6) 2 = (mkLoad [1; 1; 7; 2; 1; 8] 6 (ti_of_tag 2) 1 (Some 5), Ok tt)
  /\ load_next_by_tag t8l8v (load_start [1; 1; 7; 2; 1; 8] 6) 3 = (load_start [1; 1; 7; 2; 1; 8] 6, Err ENOENT).
Proof. split; vm_compute; reflexivity. Qed.

Section Structs.
Context {V : Type}.

(* ---------------------------------------------------------------- C09 *)
Theorem C09_unknown_ies_ignored Tail c rep hdr (ies : list (coding V)) items u d rest rest' :
  cfg_ok c -> cfg_rt c rep hdr -> tail_closed Tail -> Tail rest -> Tail rest' ->
  Forall (all_leaves (leaf_local Tail)) ies -> Forall (all_cfgs cfg_ok) ies ->
  rep_items rep items -> rep (fst u) (lenN (snd u)) ->
  Forall (fun e => ti_match (h_ti (head e)) (fst u) = false) ies ->
  gtlvs_decode c false (Some ies) ((ser hdr items ++ ser1 hdr u ++ d) ++ rest) (lenN (ser hdr items ++ ser1 hdr u ++ d))
  = gtlvs_decode c false (Some ies) ((ser hdr items ++ d) ++ rest') (lenN (ser hdr items ++ d)).
Proof. exact (gtlvs_ignores_unknown Tail c rep hdr ies items u d rest rest'). Qed.

(* ---------------------------------------------------------------- C10 *)
Theorem C10_order_irrelevant Tail c rep hdr (ies : list (coding V)) items items' rest rest' slots :
  cfg_ok c -> cfg_rt c rep hdr -> tail_closed Tail -> Tail rest -> Tail rest' ->
  Forall (all_leaves (leaf_local Tail)) ies -> Forall (all_cfgs cfg_ok) ies ->
  rep_items rep items -> reorder items items' ->
  gtlvs_decode c false (Some ies) (ser hdr items ++ rest) (lenN (ser hdr items)) = Ok slots ->
  gtlvs_decode c false (Some ies) (ser hdr items' ++ rest') (lenN (ser hdr items')) = Ok slots.
Proof. exact (gtlvs_reorder Tail c rep hdr ies items items' rest rest' slots). Qed.

(* ---------------------------------------------------------------- C11, C12 *)
(* success: every member, at every depth, holds an admissible number of values *)
Theorem C11_C12_counts c (ies : list (coding V)) m len slots :
  Forall all_unordered ies -> all_tables small_table ies ->
  gtlvs_decode c false (Some ies) m len = Ok slots -> struct_ok ies slots.
Proof. exact (gtlvs_decode_counts c ies m len slots). Qed.
(* for tables without repeated tags: success exactly if the data is well-formed and each member is given by the IEs
   with its tag, an admissible number of them *)
Theorem C11_C12_decode_iff Tail c (ies : list (coding V)) d rest slots :
  cfg_ok c -> tail_closed Tail -> Tail rest ->
  Forall (all_leaves (leaf_local Tail)) ies -> Forall (all_cfgs cfg_ok) ies ->
  distinct_tags ies -> maxes_pos ies -> small_table ies ->
  (gtlvs_decode c false (Some ies) (d ++ rest) (lenN d) = Ok slots <->
   exists items, parse c d (lenN d) = Ok items /\ Forall2 (member_of c rest items) ies slots).
Proof. exact (decode_unordered_iff Tail c ies d rest slots). Qed.
Theorem C11_missing_is_EINVAL Tail c (ies : list (coding V)) d items slots rest :
  cfg_ok c -> tail_closed Tail -> Tail rest ->
  Forall (all_leaves (leaf_local Tail)) ies -> Forall (all_cfgs cfg_ok) ies ->
  distinct_tags ies -> maxes_pos ies -> small_table ies ->
  parse c d (lenN d) = Ok items ->
  Forall2 (fun d s => lenN s <= cap_of (head d) /\
     Forall2 (fun it v => dec_coding d c false (snd it ++ rest) (lenN (snd it)) = Ok v) (items_for d items) s) ies slots ->
  Exists (fun d => lenN (items_for d items) < low_of (head d)) ies ->
  gtlvs_decode c false (Some ies) (d ++ rest) (lenN d) = Err EINVAL.
Proof. exact (decode_missing Tail c ies d items slots rest). Qed.
Theorem C12_surplus_is_ENOTSUP Tail c rep hdr (ies : list (coding V)) items1 it items2 slots1 rest :
  cfg_ok c -> cfg_rt c rep hdr -> tail_closed Tail -> Tail rest ->
  Forall (all_leaves (leaf_local Tail)) ies -> Forall (all_cfgs cfg_ok) ies ->
  distinct_tags ies -> maxes_pos ies -> small_table ies ->
  rep_items rep (items1 ++ it :: items2) ->
  Forall2 (fun d s => lenN s <= cap_of (head d) /\
     Forall2 (fun it v => dec_coding d c false (snd it ++ rest) (lenN (snd it)) = Ok v) (items_for d items1) s) ies slots1 ->
  Exists (fun d => ti_match (h_ti (head d)) (fst it) = true /\ lenN (items_for d items1) = cap_of (head d)) ies ->
  gtlvs_decode c false (Some ies) (ser hdr (items1 ++ it :: items2) ++ rest) (lenN (ser hdr (items1 ++ it :: items2))) = Err ENOTSUP.
Proof. exact (decode_surplus Tail c rep hdr ies items1 it items2 slots1 rest). Qed.

(* ---------------------------------------------------------------- C13 *)
Theorem C13_decode_safe Tail c o (ies : list (coding V)) d rest :
  cfg_ok c -> tail_closed Tail -> Tail rest ->
  Forall (all_leaves (leaf_local Tail)) ies -> Forall (all_leaves (leaf_safe Tail)) ies -> Forall (all_cfgs cfg_ok) ies ->
  all_tables maxes_pos ies ->
  is_ub (gtlvs_decode c o (Some ies) (d ++ rest) (lenN d)) = false.
Proof. exact (gtlvs_decode_safe Tail c o ies d rest). Qed.
(* nor does the result depend on anything behind the data *)
Theorem C13_decode_local Tail c o (ies : list (coding V)) d rest rest' :
  cfg_ok c -> tail_closed Tail -> Tail rest -> Tail rest' ->
  Forall (all_leaves (leaf_local Tail)) ies -> Forall (all_cfgs cfg_ok) ies ->
  gtlvs_decode c o (Some ies) (d ++ rest) (lenN d) = gtlvs_decode c o (Some ies) (d ++ rest') (lenN d).
Proof. exact (gtlvs_decode_local Tail c o ies d rest rest'). Qed.

(* ---------------------------------------------------------------- C14, C15 *)
(* o = false: unordered (C14), o = true: ordered (C15). Any struct with a wire form [bs]: *)
Theorem C14_C15_wire_roundtrip Tail c o (ies : list (coding V)) slots bs buf cap rest :
  cfg_ok c -> tail_closed Tail -> Tail rest ->
  Forall (all_leaves (leaf_local Tail)) ies -> Forall (all_cfgs cfg_ok) ies -> all_tables table_ok ies ->
  struct_repr Tail c ies slots bs -> lenN buf + lenN bs <= cap ->
  gtlvs_encode c cap (Some ies) buf slots = EOk (buf ++ bs)
  /\ gtlvs_decode c o (Some ies) (bs ++ rest) (lenN bs) = Ok slots.
Proof. exact (gtlvs_repr_roundtrip Tail c o ies slots bs buf cap rest). Qed.
(* every well-formed struct has one, unless it is larger than the length field allows *)
Theorem C14_C15_wire_exists Tail c maxlen hdr tag_ok (ies : list (coding V)) slots :
  headers_repr c maxlen hdr tag_ok -> Forall (all_cfgs (fun x => x = c)) ies -> Forall (all_tags tag_ok) ies ->
  struct_wf Tail ies slots -> exists bs, lenN bs <= maxlen -> struct_repr Tail c ies slots bs.
Proof. exact (fun HH => struct_wf_repr Tail c maxlen hdr tag_ok HH ies slots). Qed.
(* and in terms of a successful encode *)
Theorem C14_C15_encode_decode Tail c hs maxlen hdr tag_ok o (ies : list (coding V)) cap buf slots buf' rest :
  fixed_format c hs maxlen hdr tag_ok -> headers_repr c maxlen hdr tag_ok -> cfg_ok c -> tail_closed Tail -> Tail rest ->
  Forall (all_cfgs (fun x => x = c)) ies -> Forall (all_tags tag_ok) ies -> Forall (all_leaves (leaf_local Tail)) ies ->
  all_tables table_ok ies -> struct_wf Tail ies slots ->
  gtlvs_encode c cap (Some ies) buf slots = EOk buf' -> lenN buf' + hs <= cap -> lenN buf' <= maxlen ->
  exists bs, buf' = buf ++ bs /\ gtlvs_decode c o (Some ies) (bs ++ rest) (lenN bs) = Ok slots.
Proof. exact (encode_decode Tail c hs maxlen hdr tag_ok o ies cap buf slots buf' rest). Qed.

(* ---------------------------------------------------------------- C16 *)
(* holds for tables without repeated tags that ask for at most one repetition; see the refutations below *)
Theorem C16_ordered_mandatory_partial c o (ies : list (coding V)) m len slots : all_tables table_plain ies ->
  gtlvs_decode c o (Some ies) m len = Ok slots -> struct_ok ies slots.
Proof. exact (gtlvs_decode_counts_any c o ies m len slots). Qed.

(* ---------------------------------------------------------------- C81 *)
(* holds for data that is a sequence of whole IEs; see the refutation *)
Theorem C81_ordered_decode_iff_partial Tail c (ies : list (coding V)) d rest items slots :
  cfg_ok c -> tail_closed Tail -> Tail rest ->
  Forall (all_leaves (leaf_local Tail)) ies -> Forall (all_cfgs cfg_ok) ies -> distinct_tags ies ->
  parse c d (lenN d) = Ok items ->
  (gtlvs_decode c true (Some ies) (d ++ rest) (lenN d) = Ok slots <-> in_order c rest ies items slots).
Proof. exact (decode_ordered_iff Tail c ies d rest items slots). Qed.

(* ---------------------------------------------------------------- C17 *)
(* holds as long as the size limits of the format and the room for one more header are kept; see the refutations *)
Theorem C17_encode_shape_partial c hs maxlen hdr tag_ok (ies : list (coding V)) cap buf slots buf' :
  fixed_format c hs maxlen hdr tag_ok ->
  Forall (all_cfgs (fun x => x = c)) ies -> Forall (all_tags tag_ok) ies ->
  gtlvs_encode c cap (Some ies) buf slots = EOk buf' -> lenN buf' + hs <= cap -> lenN buf' <= maxlen ->
  exists bs, buf' = buf ++ bs /\ struct_shape hdr ies slots bs.
Proof. exact (fun HF => gtlvs_encode_shape c hs maxlen hdr tag_ok HF ies cap buf slots buf'). Qed.
(* without a table (message type that is not defined) nothing is encoded or decoded *)
Theorem C17_no_table c cap o buf (slots : list (slot V)) m len :
  gtlvs_encode c cap None buf slots = EErr buf ENOTSUP /\ gtlvs_decode c o (None : option (list (coding V))) m len = Err ENOTSUP.
Proof. exact (conj eq_refl eq_refl). Qed.
End Structs.
Print Assumptions C09_unknown_ies_ignored.
Print Assumptions C10_order_irrelevant.
Print Assumptions C11_C12_counts.
Print Assumptions C11_C12_decode_iff.
Print Assumptions C11_missing_is_EINVAL.
Print Assumptions C12_surplus_is_ENOTSUP.
Print Assumptions C13_decode_safe.
Print Assumptions C13_decode_local.
Print Assumptions C14_C15_wire_roundtrip.
Print Assumptions C14_C15_wire_exists.
Print Assumptions C14_C15_encode_decode.
Print Assumptions C16_ordered_mandatory_partial.
Print Assumptions C81_ordered_decode_iff_partial.
Print Assumptions C17_encode_shape_partial.
Print Assumptions C17_no_table.

(* the stock formats qualify *)
Theorem C14_C17_formats :
  (fixed_format t8l8v 2 255 hdr_t8l8v tag8 /\ headers_repr t8l8v 255 hdr_t8l8v tag8)
  /\ (fixed_format t16l16v 4 65535 hdr_t16l16v tag16 /\ headers_repr t16l16v 65535 hdr_t16l16v tag16).
Proof. exact (conj (conj t8l8v_fixed t8l8v_headers) (conj t16l16v_fixed t16l16v_headers)). Qed.
Print Assumptions C14_C17_formats.

(* a table with mandatory, optional, repeated and nested IEs, and a struct for it, meet the hypotheses *)
Example C09_C17_example_hypotheses :
  tail_closed AnyTail /\ Forall (all_leaves (leaf_local AnyTail)) ex_table /\ Forall (all_leaves (leaf_safe AnyTail)) ex_table
  /\ Forall (all_cfgs cfg_ok) ex_table /\ Forall (all_tags tag8) ex_table
  /\ all_tables table_ok ex_table /\ all_tables table_plain ex_table /\ struct_wf AnyTail ex_table ex_struct.
Proof.
  exact (conj AnyTail_closed (conj ex_local (conj ex_safe (conj (ex_cfgs _) (conj ex_tags (conj ex_table_ok (conj ex_table_plain ex_wf))))))).
Qed.
Example C14_C15_example :
  gtlvs_encode t8l8v 64 (Some ex_table) [] ex_struct = EOk ex_bytes
  /\ gtlvs_decode t8l8v false (Some ex_table) ex_bytes (lenN ex_bytes) = Ok ex_struct
  /\ gtlvs_decode t8l8v true (Some ex_table) ex_bytes (lenN ex_bytes) = Ok ex_struct.
Proof. repeat split; vm_compute; reflexivity. Qed.
Example C09_C12_example :
  (* unknown IE 77 inserted, IEs 1 and 3 exchanged: same result *)
  gtlvs_decode t8l8v false (Some ex_table) [3;2;0;8;77;1;0;1;2;0;7;3;2;0;9;4;8;1;2;0;10;2;2;0;11] 25 = Ok ex_struct
  (* IE 1 missing *)
  /\ gtlvs_decode t8l8v false (Some ex_table) [3;2;0;8] 4 = Err EINVAL
  (* IE 1 twice *)
  /\ gtlvs_decode t8l8v false (Some ex_table) [1;2;0;7;1;2;0;7;3;2;0;8] 12 = Err ENOTSUP.
Proof. repeat split; vm_compute; reflexivity. Qed.

(* ---------------------------------------------------------------- refutations *)
(* C16 as stated is false: a mandatory IE is skipped when the decoder jumps to a later entry with the same tag, *)
Theorem C16_ordered_mandatory_refuted : exists (ies : list (coding tv)) d slots,
  gtlvs_decode t8l8v true (Some ies) d (lenN d) = Ok slots /\ ~ struct_ok ies slots.
Proof. exact (ex_intro _ jump_table (ex_intro _ [1;2;0;5;1;2;0;6] (ex_intro _ _ ordered_mandatory_skipped))). Qed.
Print Assumptions C16_ordered_mandatory_refuted.
(* and a minimum of two repetitions is not enforced even without repeated tags *)
Theorem C16_ordered_count_refuted : exists (ies : list (coding tv)) d slots, distinct_tags ies /\
  gtlvs_decode t8l8v true (Some ies) d (lenN d) = Ok slots /\ ~ struct_ok ies slots.
Proof. exact (ex_intro _ mand2_table (ex_intro _ [1;2;0;5] (ex_intro _ _ ordered_count_not_enforced))). Qed.
Print Assumptions C16_ordered_count_refuted.
(* C13 needs count_max >= 1: otherwise ordered decoding can write beyond a repeated member *)
Theorem C13_max0_refuted : exists (ies : list (coding tv)) d, gtlvs_decode t8l8v true (Some ies) d (lenN d) = UB OobWrite.
Proof. exact (ex_intro _ max0_table (ex_intro _ [1;2;0;5;1;2;0;6] ordered_max0_overflow)). Qed.
Print Assumptions C13_max0_refuted.
(* C17 as stated is false: success although the length field of a 256-byte value is 0, *)
Theorem C17_oversized_value_refuted : exists (ies : list (coding tv)) slots bs,
  gtlvs_encode t8l8v 1024 (Some ies) [] slots = EOk bs /\ ~ struct_shape hdr_t8l8v ies slots bs.
Proof. exact (ex_intro _ any_table (ex_intro _ big_struct (ex_intro _ _ (conj big_value_len0 big_value_not_shaped)))). Qed.
Print Assumptions C17_oversized_value_refuted.
(* and success although there was no room for the header of an IE, whose value becomes part of the previous IE *)
Theorem C17_no_room_refuted : exists (ies : list (coding tv)) slots bs,
  gtlvs_encode t8l8v 4 (Some ies) [] slots = EOk bs /\ ~ struct_shape hdr_t8l8v ies slots bs.
Proof. exact (ex_intro _ any_table (ex_intro _ two_struct (ex_intro _ _ (conj no_header_merged no_header_not_shaped)))). Qed.
Print Assumptions C17_no_room_refuted.

(* ---------------------------------------------------------------- C81: example and refutation *)
Example C81_example :
  parse t8l8v [77;1;0;1;2;0;7;3;2;0;8;3;2;0;9;1;1;5;4;8;1;2;0;10;2;2;0;11] 28
    = Ok [(ti_of_tag 77, [0]); (ti_of_tag 1, [0;7]); (ti_of_tag 3, [0;8]); (ti_of_tag 3, [0;9]); (ti_of_tag 1, [5]); (ti_of_tag 4, [1;2;0;10;2;2;0;11])]
  (* the unknown IE 77 and the late, even undecodable, second IE 1 are passed over *)
  /\ gtlvs_decode t8l8v true (Some ex_table) [77;1;0;1;2;0;7;3;2;0;8;3;2;0;9;1;1;5;4;8;1;2;0;10;2;2;0;11] 28 = Ok ex_struct
  (* IE 1 behind IE 3, which is mandatory: rejected, not so in unordered decoding *)
  /\ gtlvs_decode t8l8v true (Some ex_table) [3;2;0;8;1;2;0;7] 8 = Err ENOENT
  /\ is_ok (gtlvs_decode t8l8v false (Some ex_table) [3;2;0;8;1;2;0;7] 8) = true.
Proof. repeat split; vm_compute; reflexivity. Qed.
(* data that is not a sequence of whole IEs is accepted when the broken part is behind the last IE looked for *)
Theorem C81_malformed_data_refuted : exists (ies : list (coding tv)) d e slots,
  parse t8l8v d (lenN d) = Err e /\ gtlvs_decode t8l8v true (Some ies) d (lenN d) = Ok slots /\ is_ok (gtlvs_decode t8l8v false (Some ies) d (lenN d)) = false.
Proof. exact ordered_ignores_rest. Qed.
Print Assumptions C81_malformed_data_refuted.
