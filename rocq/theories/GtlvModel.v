(* GtlvModel.v -- model of src/libosmo-gtlv/gtlv.c and include/osmocom/gtlv/gtlv.h *)
From Verif Require Import Base.

(* struct osmo_gtlv_tag_inst, include/osmocom/gtlv/gtlv.h:35-39 *)
Record tag_inst := mkTi { ti_tag : N; ti_ipres : bool; ti_inst : N }.

(* struct osmo_gtlv_tag_inst ti = { .tag = tag };  gtlv.c:200, 246 *)
Definition ti_of_tag (t : N) : tag_inst := mkTi t false 0.

(* OSMO_CMP(a,b) of libosmocore: -1, 0, 1 *)
Definition osmo_cmp (a b : N) : Z := if a <? b then (-1)%Z else if b <? a then 1%Z else 0%Z.

(* osmo_gtlv_tag_inst_cmp() on two non-NULL pointers, gtlv.c:30-48.
   The shortcut "a == b -> 0" for equal pointers gives the same result as comparing the contents. *)
Definition ti_cmp (a b : tag_inst) : Z :=
  let c := osmo_cmp (ti_tag a) (ti_tag b) in
  if negb (c =? 0)%Z then c else
  let c := osmo_cmp (if ti_ipres a then 1 else 0) (if ti_ipres b then 1 else 0) in
  if negb (c =? 0)%Z then c else
  if ti_ipres a then osmo_cmp (ti_inst a) (ti_inst b) else 0%Z.

(* osmo_gtlv_tag_inst_cmp(), gtlv.c:30-48, with NULL pointers as None *)
Definition tag_inst_cmp (a b : option tag_inst) : Z :=
  match a, b with
  | None, None => 0%Z
  | None, Some _ => (-1)%Z
  | Some _, None => 1%Z
  | Some x, Some y => ti_cmp x y
  end.

(* "!osmo_gtlv_tag_inst_cmp(x, y)" as used for matching, e.g. gtlv.c:212 *)
Definition ti_match (a b : tag_inst) : bool := (ti_cmp a b =? 0)%Z.

(* struct osmo_gtlv_cfg, gtlv.h:58-103.
   cfg_load m left: load_tl() on the memory [m] starting at src_data with src_data_len = left. Returns the tag,
   the length and the size of the TL header (i.e. val = src_data + size).
   cfg_store avail ti len: store_tl(); returns the header bytes. Simplification: a store_tl() that moves msgb data
   around is not covered. *)
Record cfg := mkCfg {
  cfg_min : N;
  cfg_load : list N -> N -> res (tag_inst * N * N);
  cfg_store : N -> tag_inst -> N -> res (list N)
}.

(* struct osmo_gtlv_load, gtlv.h:111-135. The memory really present from src.data on is ld_mem; ld_srclen is src.len.
   ld_val: offset of val from src.data, None for NULL. The cfg is passed separately. *)
Record load := mkLoad {
  ld_mem : list N;
  ld_srclen : N;
  ld_ti : tag_inst;
  ld_len : N;
  ld_val : option N
}.

(* A loader on a fresh buffer: gtlv->src set, everything else zero; osmo_gtlv_load_start(), gtlv.h:138-141 *)
Definition load_start (m : list N) (srclen : N) : load := mkLoad m srclen (mkTi 0 false 0) 0 None.

(* next_tl_valid(), gtlv.c:69-93: offset of the next TL and bytes left. Offsets are relative to src.data, hence the
   "ie_start < src.data" test is void and "buflen_left > src.len" cannot hold (no address wrap-around). *)
Definition next_tl_valid (c : cfg) (g : load) : res (N * N) :=
  let ie_start := match ld_val g with None => 0 | Some v => v + ld_len g end in
  if ld_srclen g <? ie_start then Err ENOSPC else
  let buflen_left := ld_srclen g - ie_start in
  if negb (buflen_left =? 0) && ((buflen_left <? cfg_min c) || (ld_srclen g <? buflen_left)) then Err EBADMSG
  else Ok (ie_start, buflen_left).

(* osmo_gtlv_load_next(), gtlv.c:125-155. Returns the new state and the return code; on an error from the final
   bounds check the state has been modified, as in the C code. On an error of load_tl() gtlv->ti has been zeroed and
   whatever load_tl() assigned before failing is not modelled. *)
Definition load_next (c : cfg) (g : load) : load * res unit :=
  match next_tl_valid c g with
  | Err e => (g, Err e)
  | UB u => (g, UB u)
  | Ok (ie_start, buflen_left) =>
    if buflen_left =? 0 then (mkLoad (ld_mem g) (ld_srclen g) (ld_ti g) (ld_len g) None, Ok tt)
    else
      match cfg_load c (dropN ie_start (ld_mem g)) buflen_left with
      | Err e => (mkLoad (ld_mem g) (ld_srclen g) (mkTi 0 false 0) (ld_len g) (ld_val g), Err e)
      | UB u => (g, UB u)
      | Ok (ti, len, hsz) =>
        let g' := mkLoad (ld_mem g) (ld_srclen g) ti len (Some (ie_start + hsz)) in
        let ie_end := ie_start + hsz + len in
        if ld_srclen g <? ie_end then (g', Err EBADMSG) else (g', Ok tt)
      end
  end.

(* osmo_gtlv_load_peek_tag(), gtlv.c:165-189. Works on a copy; note there is no check that the value fits. *)
Definition load_peek_tag (c : cfg) (g : load) : res tag_inst :=
  match next_tl_valid c g with
  | Err e => Err e
  | UB u => UB u
  | Ok (ie_start, buflen_left) =>
    if buflen_left =? 0 then Err ENOENT
    else
      match cfg_load c (dropN ie_start (ld_mem g)) buflen_left with
      | Err _ => Err EBADMSG
      | UB u => UB u
      | Ok (ti, _, _) => Ok ti
      end
  end.

(* the for(;;) loop of osmo_gtlv_load_next_by_tag_inst(), gtlv.c:204-218, on the copy "work" *)
Fixpoint by_tag_loop (fuel : nat) (c : cfg) (work : load) (ti : tag_inst) : res load :=
  match fuel with
  | O => UB OutOfFuel
  | S f =>
    match load_next c work with
    | (_, Err e) => Err e
    | (_, UB u) => UB u
    | (work', Ok _) =>
      match ld_val work' with
      | None => Err ENOENT
      | Some _ => if ti_match (ld_ti work') ti then Ok work' else by_tag_loop f c work' ti
      end
    end
  end.

(* model only: step budget for loops over the TLVs of a buffer; exceeds the number of TLVs, see C05 and C13 *)
Definition budget (m : list N) (srclen : N) : nat := S (N.to_nat (N.min srclen (lenN m))).

(* osmo_gtlv_load_next_by_tag_inst(), gtlv.c:204-218: *gtlv = work only on success. *)
Definition load_next_by_tag_inst (c : cfg) (g : load) (ti : tag_inst) : load * res unit :=
  match by_tag_loop (budget (ld_mem g) (ld_srclen g)) c g ti with
  | Ok work => (work, Ok tt)
  | Err e => (g, Err e)
  | UB u => (g, UB u)
  end.

(* osmo_gtlv_load_next_by_tag(), gtlv.c:198-202 *)
Definition load_next_by_tag (c : cfg) (g : load) (tag : N) : load * res unit :=
  load_next_by_tag_inst c g (ti_of_tag tag).

(* Destination msgb + struct osmo_gtlv_put, gtlv.h:149-162: bytes up to tail, total capacity, and the last TL
   (last_ti, last_tl, last_val as offsets; None = NULL as in a freshly initialised struct). *)
Record put := mkPut { pt_buf : list N; pt_cap : N; pt_last : option (tag_inst * N * N) }.

(* msgb_tailroom() *)
Definition tailroom (buf : list N) (cap : N) : N := cap - lenN buf.

(* osmo_gtlv_put_tli(), gtlv.c:253-268. store_tl() got the tailroom, hence msgb_put(rc) cannot abort as long as
   store_tl() writes no more than it was given; checked by the theorems. *)
Definition put_tli (c : cfg) (p : put) (ti : tag_inst) (len : N) : put * res unit :=
  match cfg_store c (tailroom (pt_buf p) (pt_cap p)) ti len with
  | Err e => (p, Err e)
  | UB u => (p, UB u)
  | Ok hdr =>
    if tailroom (pt_buf p) (pt_cap p) <? lenN hdr then (p, UB MsgbAbort)
    else (mkPut (pt_buf p ++ hdr) (pt_cap p) (Some (ti, lenN (pt_buf p), lenN (pt_buf p) + lenN hdr)), Ok tt)
  end.

(* osmo_gtlv_put_tl(), gtlv.c:244-248 *)
Definition put_tl (c : cfg) (p : put) (tag : N) (len : N) : put * res unit := put_tli c p (ti_of_tag tag) len.

(* write [bs] over the bytes of [buf] from offset [ofs] on *)
Definition overwrite (buf : list N) (ofs : N) (bs : list N) : list N :=
  takeN ofs buf ++ bs ++ dropN (ofs + lenN bs) buf.

(* osmo_gtlv_put_update_tl(), gtlv.c:274-284. With last_val == NULL the computed len is the address of the tail, a
   huge value, and store_tl() of the stock formats is called with tag 0 on a 0-byte area: it fails with -EMSGSIZE. *)
Definition put_update_tl (c : cfg) (p : put) : put * res unit :=
  match pt_last p with
  | None => (p, Err EMSGSIZE)
  | Some (ti, tl, v) =>
    let len := lenN (pt_buf p) - v in
    match cfg_store c (v - tl) ti len with
    | Err e => (p, Err e)
    | UB u => (p, UB u)
    | Ok hdr => (mkPut (overwrite (pt_buf p) tl hdr) (pt_cap p) (Some (ti, tl, tl + lenN hdr)), Ok tt)
    end
  end.

(* the user's msgb_put() + memcpy of a value between put_tl and put_update_tl: msgb_put() aborts without tailroom *)
Definition put_value (p : put) (v : list N) : res put :=
  if tailroom (pt_buf p) (pt_cap p) <? lenN v then UB MsgbAbort
  else Ok (mkPut (pt_buf p ++ v) (pt_cap p) (pt_last p)).

(* t8l8v_load_tl(), gtlv.c:286-293 *)
Definition t8l8v_load (m : list N) (left : N) : res (tag_inst * N * N) :=
  match m with
  | t :: l :: _ => Ok (ti_of_tag t, l, 2)
  | _ => UB OobRead
  end.

(* t8l8v_store_tl(), gtlv.c:295-307 *)
Definition t8l8v_store (avail : N) (ti : tag_inst) (len : N) : res (list N) :=
  if 255 <? ti_tag ti then Err EINVAL else
  if 255 <? len then Err EMSGSIZE else
  if avail <? 2 then Err ENOSPC else
  Ok [ti_tag ti; len].

(* osmo_t8l8v_cfg, gtlv.c:309-313 *)
Definition t8l8v : cfg := mkCfg 2 t8l8v_load t8l8v_store.

(* t16l16v_load_tl(), gtlv.c:315-322 *)
Definition t16l16v_load (m : list N) (left : N) : res (tag_inst * N * N) :=
  match m with
  | a :: b :: x :: y :: _ => Ok (ti_of_tag (a * 256 + b), x * 256 + y, 4)
  | _ => UB OobRead
  end.

(* t16l16v_store_tl(), gtlv.c:324-336 *)
Definition t16l16v_store (avail : N) (ti : tag_inst) (len : N) : res (list N) :=
  if 65535 <? ti_tag ti then Err EINVAL else
  if 65535 <? len then Err EMSGSIZE else
  if avail <? 4 then Err ENOSPC else
  Ok (be_put 2 (ti_tag ti) ++ be_put 2 len).

(* osmo_t16l16v_cfg, gtlv.c:338-342 *)
Definition t16l16v : cfg := mkCfg 4 t16l16v_load t16l16v_store.

(* Two user-defined formats from the project's tests: instance values (TLIV) and variable-size T and L.
   tliv_load_tl(), tests/libosmo-gtlv/gtlv_test.c:530-551 *)
Definition tliv_has_inst (t : N) : bool := (t =? 5) || (t =? 7) || (t =? 9).
Definition tliv_load (m : list N) (left : N) : res (tag_inst * N * N) :=
  match m with
  | t :: l :: m' =>
    if tliv_has_inst t then
      if left <? 3 then Err ENOSPC else
      match m' with i :: _ => Ok (mkTi t true i, l, 3) | [] => UB OobRead end
    else Ok (ti_of_tag t, l, 2)
  | _ => UB OobRead
  end.

(* tliv_store_tl(), gtlv_test.c:553-582 *)
Definition tliv_store (avail : N) (ti : tag_inst) (len : N) : res (list N) :=
  if 255 <? ti_tag ti then Err EINVAL else
  if 255 <? len then Err EMSGSIZE else
  if avail <? 2 then Err ENOSPC else
  if tliv_has_inst (ti_tag ti) then
    if avail <? 3 then Err ENOSPC else
    if negb (ti_ipres ti) then Err EINVAL else
    if 255 <? ti_inst ti then Err EINVAL else
    Ok [ti_tag ti; len; ti_inst ti]
  else Ok [ti_tag ti; len].

(* osmo_tliv_cfg, gtlv_test.c:584-588 *)
Definition tliv : cfg := mkCfg 2 tliv_load tliv_store.

(* txlxv_load_tl(), gtlv_test.c:434-470 *)
Definition txlxv_load (m : list N) (left : N) : res (tag_inst * N * N) :=
  match m with
  | [] => UB OobRead
  | b0 :: m1 =>
    let tagpart :=
      if 128 <=? b0 then
        if left <? 2 then Err EINVAL else
        match m1 with b1 :: m2 => Ok (b1 * 128 + b0 mod 128, 2, m2) | [] => UB OobRead end
      else Ok (b0, 1, m1) in
    x <- tagpart ;;
    let '(tag, pos, rest) := x in
    if tag =? 1002 then Ok (ti_of_tag tag, 2, pos)
    else if tag =? 123 then
      if left <? pos + 2 then Err EINVAL else
      match rest with a :: b :: _ => Ok (ti_of_tag tag, a * 256 + b, pos + 2) | _ => UB OobRead end
    else
      if left <? pos + 1 then Err EINVAL else
      match rest with a :: _ => Ok (ti_of_tag tag, a, pos + 1) | _ => UB OobRead end
  end.

(* txlxv_store_tl(), gtlv_test.c:473-516. pos[1] = tag >> 7 is stored into a byte. *)
Definition txlxv_store (avail : N) (ti : tag_inst) (len : N) : res (list N) :=
  let tag := ti_tag ti in
  let tagb := if tag <? 128 then [tag] else [128 + tag mod 128; (tag / 128) mod 256] in
  if avail <? lenN tagb then Err ENOSPC else
  if tag =? 1002 then Ok tagb
  else if tag =? 123 then
    if 65535 <? len then Err ERANGE else
    if avail <? lenN tagb + 2 then Err ENOSPC else Ok (tagb ++ be_put 2 len)
  else
    if 255 <? len then Err ERANGE else
    if avail <? lenN tagb + 1 then Err ENOSPC else Ok (tagb ++ [len]).

(* txlxv_cfg, gtlv_test.c:518-522 *)
Definition txlxv : cfg := mkCfg 1 txlxv_load txlxv_store.

(* The usual caller's loop around load_next (gtlv.c:103-116, doc comment): collect (tag, value) until the end.
   The value is read from memory (osmo_hexdump etc.). *)
Definition item : Type := tag_inst * list N.
Fixpoint load_all (fuel : nat) (c : cfg) (g : load) : res (list item) :=
  match fuel with
  | O => UB OutOfFuel
  | S f =>
    match load_next c g with
    | (_, Err e) => Err e
    | (_, UB u) => UB u
    | (g', Ok _) =>
      match ld_val g' with
      | None => Ok []
      | Some v =>
        val <- rdN (ld_len g') (dropN v (ld_mem g')) ;;
        r <- load_all f c g' ;; Ok ((ld_ti g', val) :: r)
      end
    end
  end.
Definition parse (c : cfg) (m : list N) (srclen : N) : res (list item) :=
  load_all (budget m srclen) c (load_start m srclen).

(* The usual caller's loop around put_tl .. put_update_tl (gtlv.c:225-241, doc comment); a caller that checks every
   return code. *)
Definition put_item (c : cfg) (p : put) (it : item) : res put :=
  match put_tli c p (fst it) 0 with
  | (p1, Ok _) =>
    p2 <- put_value p1 (snd it) ;;
    match put_update_tl c p2 with
    | (p3, Ok _) => Ok p3
    | (_, Err e) => Err e
    | (_, UB u) => UB u
    end
  | (_, Err e) => Err e
  | (_, UB u) => UB u
  end.
Fixpoint put_items (c : cfg) (p : put) (l : list item) : res put :=
  match l with [] => Ok p | it :: l' => p' <- put_item c p it ;; put_items c p' l' end.
