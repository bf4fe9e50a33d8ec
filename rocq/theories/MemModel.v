(* MemModel.v -- src/libosmo-gtlv/gtlv_dec_enc.c on the memory of the decoded C struct: member offsets, presence flags,
   counts, array pitch and the membof() assertions, which DecEncModel.v leaves out *)
From Coq Require Import String Ascii.
From Verif Require Import Base GtlvModel DecEncModel StrModel.

(* unsigned int arithmetic *)
Definition u32 (x : N) : N := x mod 2 ^ 32.

(* ---------------------------------------------------------------- memory of the decoded struct *)

(* a step that reads and writes the decoded struct: the memory afterwards (also when it fails) and the outcome *)
Definition mm (A : Type) := list N -> list N * res A.
Definition ret {A} (x : A) : mm A := fun m => (m, Ok x).
Definition lift {A} (x : res A) : mm A := fun m => (m, x).
Definition bindm {A B} (x : mm A) (f : A -> mm B) : mm B := fun m =>
  match x m with
  | (m', Ok a) => f a m'
  | (m', Err e) => (m', Err e)
  | (m', UB u) => (m', UB u)
  end.
Notation "x <~ a ;; b" := (bindm a (fun x => b)) (at level 61, a at next level, right associativity).

(* read n bytes / write the bytes bs at address a (offset from decoded_struct) *)
Definition peek (a n : N) (m : list N) : res (list N) :=
  if a + n <=? lenN m then Ok (takeN n (dropN a m)) else UB OobRead.
Definition rd (a n : N) : mm (list N) := fun m => (m, peek a n m).
Definition wr (a : N) (bs : list N) : mm unit := fun m =>
  if a + lenN bs <=? lenN m then (takeN a m ++ bs ++ dropN (a + lenN bs) m, Ok tt) else (m, UB OobWrite).

(* membof_const() / membof(), gtlv_dec_enc.c:53-66: address of the member at offset ofs of the object at [base], of which
   [size] bytes exist. The pointer arithmetic is done on offsets; forming an out-of-bounds pointer is not modelled as UB. *)
Definition membof (base size ofs : N) : res N := if ofs <? size then Ok (base + ofs) else UB AssertFail.

(* a "bool" (one byte) and an "unsigned int" (four bytes, in the byte order of the host) in memory *)
Definition b2y (b : bool) : list N := [if b then 1 else 0].
Definition y2b (l : list N) : bool := match l with [b] => negb (b =? 0) | _ => false end.
Definition u2y (be : bool) (x : N) : list N := if be then be_put 4 x else rev (be_put 4 x).
Definition y2u (be : bool) (l : list N) : N := if be then be_get l else be_get (rev l).

(* ---------------------------------------------------------------- coding tables *)

(* dec_func / enc_func / enc_to_str_func on the memory of their member; NULL = None. [ml_size]: the number of bytes of the
   member they access. ml_dec old m len: the member holds [old]; the value part is at memory [m], length [len]; result: what the
   member holds afterwards, and the return code. *)
Record mleaf := mkMLeaf {
  ml_size : N;
  ml_dec : option (list N -> list N -> N -> list N * res unit);
  ml_enc : option (N -> list N -> enc_out);
  ml_str : option (list N -> strfn)
}.

(* struct osmo_gtlv_coding, gtlv_dec_enc.h:80-173: ti, has_presence_flag, has_count, count_max and count_mandatory are in
   mh_h; memb_ofs, memb_array_pitch, presence_flag_ofs, count_ofs *)
Record mhead := mkMHead { mh_h : chead; mh_ofs : N; mh_pitch : N; mh_pofs : N; mh_cofs : N }.

(* one entry of a coding table; [sz] is the size of the nested C struct. The functions below do not use it, it is there for
   the specification of the layout. *)
Inductive mcoding (K : Type) :=
| MLeaf (h : mhead) (k : K)
| MNest (h : mhead) (sz : N) (nc : option cfg) (o : nest_order) (ies : list (mcoding K)).
Arguments MLeaf {K}. Arguments MNest {K}.
Definition mhd {K} (cd : mcoding K) : mhead := match cd with MLeaf h _ => h | MNest h _ _ _ _ => h end.

Section Mem.
Context {K : Type}.
Variable lk : K -> mleaf.
Variable be : bool.  (* byte order of the host *)
Variable dsz : N.    (* decoded_struct_size *)

Definition rd_bool (a : N) : mm bool := l <~ rd a 1 ;; ret (y2b l).
Definition rd_uint (a : N) : mm N := l <~ rd a 4 ;; ret (y2u be l).

(* "iec->has_presence_flag ? membof(obj, obj_maxlen, iec->presence_flag_ofs) : NULL", e.g. gtlv_dec_enc.c:146-149 *)
Definition flag_p (obj : N) (h : mhead) : res (option N) :=
  if h_pres (mh_h h) then a <- membof obj (dsz - obj) (mh_pofs h) ;; Ok (Some a) else Ok None.
Definition count_p (obj : N) (h : mhead) : res (option N) :=
  match h_multi (mh_h h) with Some _ => a <- membof obj (dsz - obj) (mh_cofs h) ;; Ok (Some a) | None => Ok None end.
Definition cmax (h : mhead) : N := match h_multi (mh_h h) with Some (mx, _) => mx | None => 1 end.

(* memb_ofs + idx * memb_array_pitch *)
Definition elem_ofs (h : mhead) (idx : N) : N := u32 (mh_ofs h + u32 (idx * mh_pitch h)).

(* an entry with its decoder: parent's cfg, parent's tlv_ordered, obj_ofs, offset of the member, memory at val, len *)
Record mentry := mkMEntry { me_h : mhead; me_dec : cfg -> bool -> N -> N -> list N -> N -> mm unit }.

(* ---------------------------------------------------------------- osmo_gtlvs_decode_unordered(), 83-260 *)

(* the search for an entry that can take this TLV, 130-170: the entry and its index, and ie_max_allowed_count *)
Fixpoint mfind (obj : N) (es : list mentry) (idx allowed : N) (seen : N -> bool) (ti : tag_inst)
  : mm (option (mentry * N) * N) :=
  match es with
  | [] => ret (None, allowed)
  | e :: es' =>
    let h := me_h e in
    if negb (ti_match (h_ti (mh_h h)) ti) then mfind obj es' (idx + 1) allowed seen ti
    else
      let allowed' := u32 (allowed + cmax h) in
      pf <~ lift (flag_p obj h) ;;
      cp <~ lift (count_p obj h) ;;
      full1 <~ match pf with Some a => rd_bool a | None => ret false end ;;
      full <~ (if full1 then ret true else match cp with Some a => c <~ rd_uint a ;; ret (cmax h <=? c) | None => ret false end) ;;
      if full then mfind obj es' (idx + 1) allowed' seen ti
      else
        if match pf, cp with None, None => true | _, _ => false end then
          if seen_max <=? idx then lift (Err ENOTSUP)
          else if seen idx then mfind obj es' (idx + 1) allowed' seen ti
          else ret (Some (e, idx), allowed')
        else ret (Some (e, idx), allowed')
  end.

(* 172-240: decode the TLV into what the search found; the new seen_ie_coding_entries *)
Definition mplace (c : cfg) (obj : N) (es : list mentry) (seen : N -> bool) (ti : tag_inst) (m : list N) (len : N)
  : mm (N -> bool) :=
  r <~ mfind obj es 0 0 seen ti ;;
  match fst r with
  | None => if snd r =? 0 then ret seen else lift (Err ENOTSUP)
  | Some (e, idx) =>
    let h := me_h e in
    pf <~ lift (flag_p obj h) ;;
    cp <~ lift (count_p obj h) ;;
    i <~ match cp with Some a => rd_uint a | None => ret 0 end ;;
    _ <~ me_dec e c false obj (elem_ofs h i) m len ;;
    _ <~ match cp with Some a => n <~ rd_uint a ;; wr a (u2y be (u32 (n + 1))) | None => ret tt end ;;
    _ <~ match pf with Some a => wr a (b2y true) | None => ret tt end ;;
    if seen_max <=? idx then lift (Err ENOTSUP)
    else ret (fun x => (x =? idx) || seen x)
  end.

(* the for(;;) loop, 107-241 *)
Fixpoint munord_loop (fuel : nat) (c : cfg) (obj : N) (es : list mentry) (g : load) (seen : N -> bool) : mm (N -> bool) :=
  match fuel with
  | O => lift (UB OutOfFuel)
  | S f =>
    match load_next c g with
    | (_, Err e) => lift (Err e)
    | (_, UB u) => lift (UB u)
    | (g', Ok _) =>
      match ld_val g' with
      | None => ret seen
      | Some v =>
        seen' <~ mplace c obj es seen (ld_ti g') (dropN v (ld_mem g')) (ld_len g') ;;
        munord_loop f c obj es g' seen'
      end
    end
  end.

(* the check for mandatory IEs, 243-258 *)
Fixpoint mcheck_mand (obj : N) (idx : N) (es : list mentry) (seen : N -> bool) : mm unit :=
  match es with
  | [] => ret tt
  | e :: es' =>
    let h := me_h e in
    if h_pres (mh_h h) then mcheck_mand obj (idx + 1) es' seen
    else
      match h_multi (mh_h h) with
      | Some (_, mand) =>
        a <~ lift (membof obj (dsz - obj) (mh_cofs h)) ;;
        n <~ rd_uint a ;;
        if n <? mand then lift (Err EINVAL) else mcheck_mand obj (idx + 1) es' seen
      | None =>
        if seen_max <=? idx then lift (Err ENOTSUP)
        else if seen idx then mcheck_mand obj (idx + 1) es' seen else lift (Err EINVAL)
      end
  end.

Definition mdecode_unordered (c : cfg) (obj : N) (es : list mentry) (m : list N) (srclen : N) : mm unit :=
  _ <~ lift (membof 0 dsz obj) ;;
  seen <~ munord_loop (budget m srclen) c obj es (load_start m srclen) (fun _ => false) ;;
  mcheck_mand obj 0 es seen.

(* ---------------------------------------------------------------- osmo_gtlvs_decode_ordered(), 276-420 *)

(* modes as for ord_loop of DecEncModel.v. The pointers presence_flag and multi_count are recomputed in every mode
   (UPDATE_STATE_FROM_IE_CODING, 294-299); they depend on the entry only. *)
Fixpoint mord_loop (fuel : nat) (mode : omode) (c : cfg) (obj : N) (es : list mentry) (g : load) : mm unit :=
  match fuel with
  | O => lift (UB OutOfFuel)
  | S f =>
    match es with
    | [] => match mode with MJump => lift (Err ENOTSUP) | _ => ret tt end
    | e :: es' =>
      let h := me_h e in
      (* 353-416 *)
      let decode_here :=
        pf <~ lift (flag_p obj h) ;;
        cp <~ lift (count_p obj h) ;;
        i <~ match cp with Some a => rd_uint a | None => ret 0 end ;;
        _ <~ me_dec e c true obj (elem_ofs h i) (match ld_val g with Some v => dropN v (ld_mem g) | None => [] end) (ld_len g) ;;
        _ <~ match pf with Some a => wr a (b2y true) | None => ret tt end ;;
        match cp with
        | None => mord_loop f MOuter c obj es' g
        | Some a =>
          n <~ rd_uint a ;;
          _ <~ wr a (u2y be (u32 (n + 1))) ;;
          match load_peek_tag c g with
          | UB u => lift (UB u)
          | Err _ => mord_loop f MOuter c obj es' g
          | Ok peek =>
            if negb (ti_match peek (ld_ti g)) then mord_loop f MOuter c obj es' g
            else
              match load_next c g with
              | (_, Err e) => lift (Err e)
              | (_, UB u) => lift (UB u)
              | (g', Ok _) => mord_loop f MInner c obj es g'
              end
          end
        end in
      match mode with
      | MOuter =>
        pf <~ lift (flag_p obj h) ;;
        cp <~ lift (count_p obj h) ;;
        match load_next_by_tag_inst c g (h_ti (mh_h h)) with
        | (g', Ok _) => mord_loop f MInner c obj es g'
        | (_, UB u) => lift (UB u)
        | (_, Err ENOENT) =>
          (* 306-311 *)
          missing <~ match pf, cp with
                     | Some _, _ => ret false
                     | None, None => ret true
                     | None, Some a => n <~ rd_uint a ;;
                                       ret match h_multi (mh_h h) with Some (_, mand) => n <? mand | None => false end
                     end ;;
          if missing : bool then lift (Err ENOENT)
          else _ <~ match pf with Some a => wr a (b2y false) | None => ret tt end ;; mord_loop f MOuter c obj es' g
        | (_, Err e) => lift (Err e)
        end
      | MInner =>
        cp <~ lift (count_p obj h) ;;
        full <~ match cp with Some a => n <~ rd_uint a ;; ret (cmax h <=? n) | None => ret false end ;;
        if full : bool then mord_loop f MJump c obj es' g else decode_here
      | MJump =>
        if ti_match (ld_ti g) (h_ti (mh_h h)) then decode_here else mord_loop f MJump c obj es' g
      end
    end
  end.

Definition mdecode_ordered (c : cfg) (obj : N) (es : list mentry) (m : list N) (srclen : N) : mm unit :=
  _ <~ lift (membof 0 dsz obj) ;;
  mord_loop (length es + budget m srclen) MOuter c obj es (load_start m srclen).

(* osmo_gtlvs_decode(), 434-447 *)
Definition mdecode_entries (c : cfg) (ordered : bool) (obj : N) (es : list mentry) (m : list N) (srclen : N) : mm unit :=
  if ordered then mdecode_ordered c obj es m srclen else mdecode_unordered c obj es m srclen.

(* the value part of one IE, 188-230 and 353-389 *)
Fixpoint mdec_coding (cd : mcoding K) : cfg -> bool -> N -> N -> list N -> N -> mm unit :=
  match cd with
  | MLeaf _ k => fun _ _ obj memb m len =>
    match ml_dec (lk k) with
    | None => lift (Err EIO)
    | Some d =>
      a <~ lift (membof obj (dsz - obj) memb) ;;
      old <~ rd a (ml_size (lk k)) ;;
      let '(new, r) := d old m len in
      _ <~ wr a new ;;
      lift r
    end
  | MNest _ _ nc o ies => fun c parent_ordered obj memb m len =>
    let c' := match nc with Some x => x | None => c end in
    let ordered := match o with OrdSame => parent_ordered | OrdOrdered => true | OrdUnordered => false end in
    mdecode_entries c' ordered (u32 (obj + memb)) (map (fun d => mkMEntry (mhd d) (mdec_coding d)) ies) m len
  end.
Definition mentry_of (cd : mcoding K) : mentry := mkMEntry (mhd cd) (mdec_coding cd).

(* osmo_gtlvs_decode(), 434-447; None = NULL table *)
Definition mgtlvs_decode (c : cfg) (ordered : bool) (obj : N) (ies : option (list (mcoding K))) (m : list N) (srclen : N) : mm unit :=
  match ies with
  | None => lift (Err ENOTSUP)
  | Some l => mdecode_entries c ordered obj (map mentry_of l) m srclen
  end.

(* ---------------------------------------------------------------- osmo_gtlvs_encode(), 462-526 *)

(* encoder of one value: cfg, capacity and contents of the msgb, obj_ofs, offset of the member *)
Record mee := mkMEE { mx_h : mhead; mx_enc : cfg -> N -> list N -> N -> N -> eres }.

Variable dm : list N. (* memory of the struct to be encoded *)

(* the loop 494-523; [left] = n - i *)
Fixpoint menc_vals (c : cfg) (obj : N) (e : mee) (p : put) (i : N) (left : nat) : pres :=
  match left with
  | O => POk p
  | S left' =>
    match put_tli c p (h_ti (mh_h (mx_h e))) 0 with
    | (_, UB u) => PUB u
    | (p1, _) =>
      if match h_multi (mh_h (mx_h e)) with Some (mx, _) => mx <=? i | None => false end then PErr p1 ENOTSUP else
      match mx_enc e c (pt_cap p1) (pt_buf p1) obj (elem_ofs (mx_h e) i) with
      | EUB u => PUB u
      | EErr buf er => PErr (mkPut buf (pt_cap p1) (pt_last p1)) er
      | EOk buf =>
        match put_update_tl c (mkPut buf (pt_cap p1) (pt_last p1)) with
        | (_, UB u) => PUB u
        | (p2, _) => menc_vals c obj e p2 (i + 1) left'
        end
      end
    end
  end.

(* how many values of a member are to be encoded / printed: 475-492, 554-568; EFAULT for a zero pitch (486-489) where
   [need_pitch] *)
Definition how_many (need_pitch : bool) (obj : N) (h : mhead) : res N :=
  pf <- flag_p obj h ;;
  cp <- count_p obj h ;;
  on <- match pf with Some a => l <- peek a 1 dm ;; Ok (y2b l) | None => Ok true end ;;
  if negb on then Ok 0
  else match cp with
  | None => Ok 1
  | Some a => l <- peek a 4 dm ;; if need_pitch && (mh_pitch h =? 0) then Err EFAULT else Ok (y2u be l)
  end.

Fixpoint menc_entries (c : cfg) (obj : N) (es : list mee) (p : put) : pres :=
  match es with
  | [] => POk p
  | e :: es' =>
    match how_many true obj (mx_h e) with
    | UB u => PUB u
    | Err er => PErr p er
    | Ok n =>
      match menc_vals c obj e p 0 (N.to_nat n) with
      | POk p' => menc_entries c obj es' p'
      | x => x
      end
    end
  end.
Definition menc_list (c : cfg) (cap : N) (obj : N) (es : list mee) (buf : list N) : eres :=
  match membof 0 dsz obj with
  | Ok _ =>
    match menc_entries c obj es (mkPut buf cap None) with
    | POk p => EOk (pt_buf p)
    | PErr p e => EErr (pt_buf p) e
    | PUB u => EUB u
    end
  | Err e => EErr buf e
  | UB u => EUB u
  end.

(* 505-520 *)
Fixpoint menc_coding (cd : mcoding K) : cfg -> N -> list N -> N -> N -> eres :=
  match cd with
  | MLeaf _ k => fun _ cap buf obj memb =>
    match ml_enc (lk k) with
    | None => EUB NullDeref
    | Some f =>
      match (a <- membof obj (dsz - obj) memb ;; peek a (ml_size (lk k)) dm) with
      | Ok b =>
        let '(bs, e) := f (tailroom buf cap) b in
        if tailroom buf cap <? lenN bs then EUB MsgbAbort
        else match e with None => EOk (buf ++ bs) | Some er => EErr (buf ++ bs) er end
      | Err e => EErr buf e
      | UB u => EUB u
      end
    end
  | MNest _ _ nc _ ies => fun c cap buf obj memb =>
    menc_list (match nc with Some x => x | None => c end) cap (u32 (obj + memb))
      (map (fun d => mkMEE (mhd d) (menc_coding d)) ies) buf
  end.
Definition mee_of (cd : mcoding K) : mee := mkMEE (mhd cd) (menc_coding cd).

(* osmo_gtlvs_encode(), 462-526; None = NULL table *)
Definition mgtlvs_encode (c : cfg) (cap : N) (obj : N) (ies : option (list (mcoding K))) (buf : list N) : eres :=
  match ies with
  | None => match membof 0 dsz obj with UB u => EUB u | _ => EErr buf ENOTSUP end
  | Some l => menc_list c cap obj (map mee_of l) buf
  end.

(* ---------------------------------------------------------------- osmo_gtlvs_encode_to_str_buf(), 540-606 *)
Variable names : N -> list N.

Record mte := mkMTE { mt_h : mhead; mt_put : strbuf -> N -> N -> res strbuf }.

(* 577-602; inr = return with this code *)
Fixpoint mts_vals (obj : N) (e : mte) (sb : strbuf) (i : N) (left : nat) : res (strbuf + (cbuf * Z)) :=
  match left with
  | O => Ok (inl sb)
  | S left' =>
    if match h_multi (mh_h (mt_h e)) with Some (mx, _) => mx <=? i | None => false end then Ok (inr (sb_buf sb, ENOTSUP_rc)) else
    sb <- (if 0 <? i then sb_printf sb (str ", ") else Ok sb) ;;
    sb <- mt_put e sb obj (elem_ofs (mt_h e) i) ;;
    mts_vals obj e sb (i + 1) left'
  end.
(* 553-604 *)
Fixpoint mts_entries (obj : N) (es : list mte) (sb : strbuf) : res (cbuf * Z) :=
  match es with
  | [] => sb_return sb
  | e :: es' =>
    n <- how_many false obj (mt_h e) ;;
    if n =? 0 then mts_entries obj es' sb
    else
      let multi := match h_multi (mh_h (mt_h e)) with Some _ => true | None => false end in
      sb <- sb_printf sb (str " '" ++ names (ti_tag (h_ti (mh_h (mt_h e)))) ++ str "'=") ;;
      sb <- (if multi then sb_printf sb (str "{ ") else Ok sb) ;;
      r <- mts_vals obj e sb 0 (N.to_nat n) ;;
      match r with
      | inr ret => Ok ret
      | inl sb =>
        sb <- (if multi then sb_printf sb (str " }") else Ok sb) ;;
        mts_entries obj es' sb
      end
  end.
Definition mts_struct (obj : N) (es : list mte) : strfn := fun b n =>
  _ <- membof 0 dsz obj ;; mts_entries obj es (sb_init b n).
(* 588-599 *)
Fixpoint mts_put (cd : mcoding K) (sb : strbuf) (obj memb : N) : res strbuf :=
  match cd with
  | MLeaf _ k =>
    match ml_str (lk k) with
    | Some f =>
      a <- membof obj (dsz - obj) memb ;;
      b <- peek a (ml_size (lk k)) dm ;;
      sb_append sb (f b)
    | None => sb_printf sb (str "(enc_to_str_func==NULL)")
    end
  | MNest _ _ _ _ ies =>
    sb <- sb_printf sb (str "{") ;;
    sb <- sb_append sb (mts_struct (u32 (obj + memb)) (map (fun d => mkMTE (mhd d) (mts_put d)) ies)) ;;
    sb_printf sb (str " }")
  end.
Definition mte_of (cd : mcoding K) : mte := mkMTE (mhd cd) (mts_put cd).
Definition mgtlvs_to_str (obj : N) (ies : option (list (mcoding K))) : strfn := fun b n =>
  match ies with
  | None => _ <- membof 0 dsz obj ;; Ok (b, ENOTSUP_rc)
  | Some l => mts_struct obj (map mte_of l) b n
  end.
End Mem.
