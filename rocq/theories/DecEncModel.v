(* DecEncModel.v -- model of src/libosmo-gtlv/gtlv_dec_enc.c and include/osmocom/gtlv/gtlv_dec_enc.h *)
From Verif Require Import Base GtlvModel.

(* enum osmo_gtlv_coding_nested_ies_ordered, gtlv_dec_enc.h:59-69 *)
Inductive nest_order := OrdSame | OrdOrdered | OrdUnordered.

(* What an enc_func() does: the bytes it appended to the msgb (also when it fails half-way), and its return code
   (None = 0). *)
Definition enc_out : Type := list N * option errno.

Section Types.
Context {V : Type}. (* decoded value of a single (not nested) IE *)

(* dec_func / enc_func of struct osmo_gtlv_coding (gtlv_dec_enc.h:84-89); None = NULL.
   lf_dec m len: decode the value at memory [m] of length [len] into a zero-initialised member.
   lf_enc room v: encode v when the destination msgb has [room] bytes of tailroom left. *)
Record leaf := mkLeaf {
  lf_dec : option (list N -> N -> res V);
  lf_enc : option (N -> V -> enc_out)
}.

(* ti, has_presence_flag, (has_count, count_max, count_mandatory) of struct osmo_gtlv_coding, gtlv_dec_enc.h:80-140.
   memb_ofs, memb_array_pitch, presence_flag_ofs and count_ofs are represented by the position in the table. *)
Record chead := mkHead { h_ti : tag_inst; h_pres : bool; h_multi : option (N * N) }.

(* one entry of a coding table, gtlv_dec_enc.h:80-173; the terminating '{}' entry (200-204) is the end of the list *)
Inductive coding :=
| CLeaf (h : chead) (l : leaf)
| CNest (h : chead) (nc : option cfg) (o : nest_order) (ies : list coding).

Definition head (cd : coding) : chead := match cd with CLeaf h _ => h | CNest h _ _ _ => h end.

(* decoded C struct: parallel to the coding table, for each member the list of the values stored in it:
   presence flag (and "seen") = non-empty, foo_count = length *)
Inductive val :=
| VLeaf (v : V)
| VStruct (l : list (list val)).
Definition slot := list val.

Definition nonempty (s : slot) : bool := match s with [] => false | _ => true end.

(* ---------------------------------------------------------------- decoding *)

(* a coding entry with the decoder of its value: parent's cfg, parent's "tlv_ordered", memory at val, len *)
Record entry := mkEntry { e_h : chead; e_dec : cfg -> bool -> list N -> N -> res val }.

(* "ie_coding_idx >= ARRAY_SIZE(seen_ie_coding_entries)", gtlv_dec_enc.c:97-106 *)
Definition seen_max : N := 4096.

(* one iteration of the loop of osmo_gtlvs_decode_unordered(), gtlv_dec_enc.c:111-241, for the TLV (ti, m, len): walk
   along the table; skip entries of other tags and entries that are already filled; decode into the first free one.
   [idx] = index of the first entry of [es] in the table, [allowed] = ie_max_allowed_count so far (unsigned overflow
   of that counter is not modelled). The search (130-181) and the decoding (183-240) are fused into one recursion. *)
Fixpoint place (c : cfg) (es : list entry) (idx allowed : N) (slots : list slot) (ti : tag_inst) (m : list N) (len : N)
  : res (list slot) :=
  match es, slots with
  | e :: es', s :: slots' =>
    let h := e_h e in
    if negb (ti_match (h_ti h) ti) then
      (* 136-137 *)
      r <- place c es' (idx + 1) allowed slots' ti m len ;; Ok (s :: r)
    else
      (* 143 *)
      let allowed' := allowed + match h_multi h with Some (mx, _) => mx | None => 1 end in
      (* 146-154 *)
      if (h_pres h && nonempty s) || match h_multi h with Some (mx, _) => mx <=? lenN s | None => false end then
        r <- place c es' (idx + 1) allowed' slots' ti m len ;; Ok (s :: r)
      else
        let plain := negb (h_pres h) && match h_multi h with Some _ => false | None => true end in
        (* 159-165 *)
        if plain && (seen_max <=? idx) then Err ENOTSUP
        else if plain && nonempty s then
          r <- place c es' (idx + 1) allowed' slots' ti m len ;; Ok (s :: r)
        else
          (* 183-240 *)
          v <- e_dec e c false m len ;;
          if seen_max <=? idx then Err ENOTSUP else Ok ((s ++ [v]) :: slots')
  | _, _ =>
    (* 172-181 *)
    if allowed =? 0 then Ok slots else Err ENOTSUP
  end.

(* the for(;;) loop of osmo_gtlvs_decode_unordered(), gtlv_dec_enc.c:107-241 *)
Fixpoint unord_loop (fuel : nat) (c : cfg) (es : list entry) (g : load) (slots : list slot) : res (list slot) :=
  match fuel with
  | O => UB OutOfFuel
  | S f =>
    match load_next c g with
    | (_, Err e) => Err e
    | (_, UB u) => UB u
    | (g', Ok _) =>
      match ld_val g' with
      | None => Ok slots
      | Some v =>
        slots' <- place c es 0 0 slots (ld_ti g') (dropN v (ld_mem g')) (ld_len g') ;;
        unord_loop f c es g' slots'
      end
    end
  end.

(* the check for mandatory IEs, gtlv_dec_enc.c:243-258 *)
Fixpoint check_mand (idx : N) (es : list entry) (slots : list slot) : res unit :=
  match es, slots with
  | e :: es', s :: slots' =>
    let h := e_h e in
    if h_pres h then check_mand (idx + 1) es' slots'
    else
      match h_multi h with
      | Some (_, mand) => if lenN s <? mand then Err EINVAL else check_mand (idx + 1) es' slots'
      | None =>
        if seen_max <=? idx then Err ENOTSUP
        else if nonempty s then check_mand (idx + 1) es' slots' else Err EINVAL
      end
  | _, _ => Ok tt
  end.

(* osmo_gtlvs_decode_unordered(), gtlv_dec_enc.c:83-260 *)
Definition decode_unordered (c : cfg) (es : list entry) (m : list N) (srclen : N) : res (list slot) :=
  slots <- unord_loop (budget m srclen) c es (load_start m srclen) (map (fun _ => []) es) ;;
  _ <- check_mand 0 es slots ;;
  Ok slots.

(* Where in the nested loops of osmo_gtlvs_decode_ordered() the decoder stands:
   MOuter  at the head of the outer loop, gtlv_dec_enc.c:287
   MInner  at the head of the inner loop, line 316, the TLV in [g] is to be decoded into the current entry
   MJump   the current TLV is to go to the next entry with the same tag, lines 329-351 *)
Inductive omode := MOuter | MInner | MJump.

(* osmo_gtlvs_decode_ordered(), gtlv_dec_enc.c:276-420. [es]/[slots]: the table from the current entry on. *)
Fixpoint ord_loop (fuel : nat) (mode : omode) (c : cfg) (es : list entry) (g : load) (slots : list slot)
  : res (list slot) :=
  match fuel with
  | O => UB OutOfFuel
  | S f =>
    match es, slots with
    | e :: es', s :: slots' =>
      let h := e_h e in
      (* decode the current TLV into this entry, lines 353-416 *)
      let decode_here :=
        (* writing beyond the member array; only possible after a jump, see 348-350 *)
        if match h_multi h with Some (mx, _) => mx <=? lenN s | None => false end then UB OobWrite else
        v <- e_dec e c true (match ld_val g with Some v => dropN v (ld_mem g) | None => [] end) (ld_len g) ;;
        let s' := match h_multi h with Some _ => s ++ [v] | None => [v] end in
        match h_multi h with
        | None => r <- ord_loop f MOuter c es' g slots' ;; Ok (s' :: r)
        | Some _ =>
          match load_peek_tag c g with
          | UB u => UB u
          | Err _ => r <- ord_loop f MOuter c es' g slots' ;; Ok (s' :: r)
          | Ok peek =>
            if negb (ti_match peek (ld_ti g)) then r <- ord_loop f MOuter c es' g slots' ;; Ok (s' :: r)
            else
              match load_next c g with
              | (_, Err e) => Err e
              | (_, UB u) => UB u
              | (g', Ok _) => ord_loop f MInner c es g' (s' :: slots')
              end
          end
        end in
      match mode with
      | MOuter =>
        match load_next_by_tag_inst c g (h_ti h) with
        | (g', Ok _) => ord_loop f MInner c es g' slots
        | (_, UB u) => UB u
        | (_, Err ENOENT) =>
          (* 306-311 *)
          if negb (h_pres h) && match h_multi h with Some (_, mand) => lenN s <? mand | None => true end
          then Err ENOENT
          else r <- ord_loop f MOuter c es' g slots' ;; Ok ((if h_pres h then [] else s) :: r)
        | (_, Err e) => Err e
        end
      | MInner =>
        if match h_multi h with Some (mx, _) => mx <=? lenN s | None => false end
        then r <- ord_loop f MJump c es' g slots' ;; Ok (s :: r)
        else decode_here
      | MJump =>
        if ti_match (ld_ti g) (h_ti h) then decode_here
        else r <- ord_loop f MJump c es' g slots' ;; Ok (s :: r)
      end
    | _, _ =>
      match mode with
      | MJump => Err ENOTSUP (* 341-343: this IEI does not appear again *)
      | _ => Ok slots
      end
    end
  end.

Definition decode_ordered (c : cfg) (es : list entry) (m : list N) (srclen : N) : res (list slot) :=
  ord_loop (length es + budget m srclen) MOuter c es (load_start m srclen) (map (fun _ => []) es).

(* osmo_gtlvs_decode(), gtlv_dec_enc.c:434-447, for a table that is not NULL *)
Definition decode_entries (c : cfg) (ordered : bool) (es : list entry) (m : list N) (srclen : N) : res (list slot) :=
  if ordered then decode_ordered c es m srclen else decode_unordered c es m srclen.

(* decoding of the value part of one IE: lines 188-230 (parent unordered) and 353-389 (parent ordered) *)
Fixpoint dec_coding (cd : coding) : cfg -> bool -> list N -> N -> res val :=
  match cd with
  | CLeaf _ l => fun _ _ m len =>
    match lf_dec l with
    | None => Err EIO
    | Some d => v <- d m len ;; Ok (VLeaf v)
    end
  | CNest _ nc o ies => fun c parent_ordered m len =>
    let c' := match nc with Some x => x | None => c end in
    let ordered := match o with OrdSame => parent_ordered | OrdOrdered => true | OrdUnordered => false end in
    r <- decode_entries c' ordered (map (fun d => mkEntry (head d) (dec_coding d)) ies) m len ;;
    Ok (VStruct r)
  end.

Definition entry_of (cd : coding) : entry := mkEntry (head cd) (dec_coding cd).

(* osmo_gtlvs_decode(), gtlv_dec_enc.c:434-447; None = NULL table *)
Definition gtlvs_decode (c : cfg) (ordered : bool) (ies : option (list coding)) (m : list N) (srclen : N)
  : res (list slot) :=
  match ies with
  | None => Err ENOTSUP
  | Some l => decode_entries c ordered (map entry_of l) m srclen
  end.

(* ---------------------------------------------------------------- encoding *)

(* outcome of an encoding function: msgb contents on success, msgb contents and return code on failure *)
Inductive eres := EOk (buf : list N) | EErr (buf : list N) (e : errno) | EUB (u : ub).

Record eentry := mkEEntry { ee_h : chead; ee_enc : cfg -> N -> list N -> val -> eres }.

Inductive pres := POk (p : put) | PErr (p : put) (e : errno) | PUB (u : ub).

(* the loop "for (i = 0; i < n; i++)" of osmo_gtlvs_encode(), gtlv_dec_enc.c:494-523. The return codes of
   osmo_gtlv_put_tli() (497) and osmo_gtlv_put_update_tl() (522) are ignored, as in the code. *)
Fixpoint enc_vals (c : cfg) (e : eentry) (p : put) (i : N) (vals : list val) : pres :=
  match vals with
  | [] => POk p
  | v :: vals' =>
    match put_tli c p (h_ti (ee_h e)) 0 with
    | (_, UB u) => PUB u
    | (p1, _) =>
      if match h_multi (ee_h e) with Some (mx, _) => mx <=? i | None => false end then PErr p1 ENOTSUP else
      match ee_enc e c (pt_cap p1) (pt_buf p1) v with
      | EUB u => PUB u
      | EErr buf er => PErr (mkPut buf (pt_cap p1) (pt_last p1)) er
      | EOk buf =>
        match put_update_tl c (mkPut buf (pt_cap p1) (pt_last p1)) with
        | (_, UB u) => PUB u
        | (p2, _) => enc_vals c e p2 (i + 1) vals'
        end
      end
    end
  end.

(* which values of a member are encoded: none if the presence flag is false (481-482), all [count] values of a
   repeated IE (484-485), one otherwise (491). -EFAULT for a zero array pitch is not modelled. *)
Definition to_encode (h : chead) (s : slot) : list val :=
  match h_multi h with Some _ => s | None => firstn 1 s end.

(* osmo_gtlvs_encode(), gtlv_dec_enc.c:462-526, for a table that is not NULL *)
Fixpoint enc_entries (c : cfg) (es : list eentry) (p : put) (slots : list slot) : pres :=
  match es, slots with
  | e :: es', s :: slots' =>
    match enc_vals c e p 0 (to_encode (ee_h e) s) with
    | POk p' => enc_entries c es' p' slots'
    | x => x
    end
  | _, _ => POk p
  end.
Definition enc_list (c : cfg) (cap : N) (es : list eentry) (buf : list N) (slots : list slot) : eres :=
  match enc_entries c es (mkPut buf cap None) slots with
  | POk p => EOk (pt_buf p)
  | PErr p e => EErr (pt_buf p) e
  | PUB u => EUB u
  end.

(* encoding of the value part of one IE, gtlv_dec_enc.c:505-520. The value must have the type of the table entry;
   otherwise (impossible in C) the outcome is AssertFail. *)
Fixpoint enc_coding (cd : coding) : cfg -> N -> list N -> val -> eres :=
  match cd with
  | CLeaf _ l => fun _ cap buf v =>
    match v, lf_enc l with
    | VLeaf x, Some f =>
      let '(bs, e) := f (tailroom buf cap) x in
      if tailroom buf cap <? lenN bs then EUB MsgbAbort
      else match e with None => EOk (buf ++ bs) | Some er => EErr (buf ++ bs) er end
    | VLeaf _, None => EUB NullDeref
    | VStruct _, _ => EUB AssertFail
    end
  | CNest _ nc _ ies => fun c cap buf v =>
    match v with
    | VStruct slots =>
      enc_list (match nc with Some x => x | None => c end) cap (map (fun d => mkEEntry (head d) (enc_coding d)) ies) buf slots
    | VLeaf _ => EUB AssertFail
    end
  end.

Definition eentry_of (cd : coding) : eentry := mkEEntry (head cd) (enc_coding cd).

(* osmo_gtlvs_encode(), gtlv_dec_enc.c:462-526; None = NULL table; [buf]/[cap]: destination msgb *)
Definition gtlvs_encode (c : cfg) (cap : N) (ies : option (list coding)) (buf : list N) (slots : list slot) : eres :=
  match ies with
  | None => EErr buf ENOTSUP
  | Some l => enc_list c cap (map eentry_of l) buf slots
  end.

End Types.
Arguments leaf V : clear implicits.
Arguments coding V : clear implicits.
Arguments val V : clear implicits.
Arguments slot V : clear implicits.
Arguments entry V : clear implicits.
Arguments eentry V : clear implicits.
