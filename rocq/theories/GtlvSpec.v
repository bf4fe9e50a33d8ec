(* GtlvSpec.v -- what a TLV format and a TLV buffer are, independent of the functions of the model.

   [hdr_t8l8v] / [hdr_t16l16v] state the wire format of the two stock formats; [ser hdr items] is the byte string that
   a sequence of (tag, value) items stands for. *)
From Verif Require Import Base GtlvModel.

(* wire format: one byte tag, one byte length *)
Definition hdr_t8l8v (ti : tag_inst) (len : N) : list N := [ti_tag ti; len].
(* wire format: two bytes tag, two bytes length, most significant byte first *)
Definition hdr_t16l16v (ti : tag_inst) (len : N) : list N :=
  [ti_tag ti / 256; ti_tag ti mod 256; len / 256; len mod 256].

(* which (tag, length) pairs the formats can express *)
Definition rep_t8l8v (ti : tag_inst) (len : N) : Prop := exists t, ti = ti_of_tag t /\ t < 256 /\ len < 256.
Definition rep_t16l16v (ti : tag_inst) (len : N) : Prop := exists t, ti = ti_of_tag t /\ t < 65536 /\ len < 65536.

(* valid tags *)
Definition tag8 (ti : tag_inst) : Prop := exists t, ti = ti_of_tag t /\ t < 256.
Definition tag16 (ti : tag_inst) : Prop := exists t, ti = ti_of_tag t /\ t < 65536.

(* test-suite formats *)
Definition hdr_tliv (ti : tag_inst) (len : N) : list N :=
  if ti_ipres ti then [ti_tag ti; len; ti_inst ti] else [ti_tag ti; len].
Definition rep_tliv (ti : tag_inst) (len : N) : Prop :=
  ti_tag ti < 256 /\ len < 256 /\ ti_inst ti < 256 /\ (ti_ipres ti = true <-> In (ti_tag ti) [5; 7; 9])
  /\ (ti_ipres ti = false -> ti_inst ti = 0).
Definition hdr_txlxv (ti : tag_inst) (len : N) : list N :=
  let t := ti_tag ti in
  (if t <? 128 then [t] else [128 + t mod 128; t / 128])
  ++ (if t =? 1002 then [] else if t =? 123 then [len / 256; len mod 256] else [len]).
Definition rep_txlxv (ti : tag_inst) (len : N) : Prop :=
  exists t, ti = ti_of_tag t /\ t < 32768
  /\ (if t =? 1002 then len = 2 else if t =? 123 then len < 65536 else len < 256).

(* one item, and a sequence of items, on the wire *)
Definition ser1 (hdr : tag_inst -> N -> list N) (it : item) : list N := hdr (fst it) (lenN (snd it)) ++ snd it.
Definition ser (hdr : tag_inst -> N -> list N) (l : list item) : list N := concat (map (ser1 hdr) l).

(* every item of the list can be expressed *)
Definition rep_items (rep : tag_inst -> N -> Prop) (l : list item) : Prop :=
  Forall (fun it => rep (fst it) (lenN (snd it))) l.

(* What a loader may rely on from a format (decode side): progress, no out-of-bounds access, locality. *)
Record cfg_ok (c : cfg) : Prop := {
  ok_min : 1 <= cfg_min c;
  ok_load : forall m left, left <= lenN m -> cfg_min c <= left ->
    match cfg_load c m left with
    | Ok (_, _, h) => cfg_min c <= h /\ h <= left
    | Err _ => True
    | UB _ => False
    end;
  ok_local : forall m rest left, left <= lenN m -> cfg_min c <= left ->
    cfg_load c (m ++ rest) left = cfg_load c m left
}.

(* A format whose load_tl() never returns an error, as that of the two stock formats *)
Definition load_tl_total (c : cfg) : Prop := forall m left e, cfg_load c m left <> Err e.

(* A format whose headers are written as [hdr] for all (tag, length) in [rep], and are read back. *)
Record cfg_rt (c : cfg) (rep : tag_inst -> N -> Prop) (hdr : tag_inst -> N -> list N) : Prop := {
  rt_store : forall ti len avail, rep ti len -> lenN (hdr ti len) <= avail ->
    cfg_store c avail ti len = Ok (hdr ti len);
  rt_nospc : forall ti len avail, rep ti len -> avail < lenN (hdr ti len) ->
    exists e, cfg_store c avail ti len = Err e;
  rt_store0 : forall ti len avail, rep ti len -> lenN (hdr ti len) <= avail ->
    exists h0, cfg_store c avail ti 0 = Ok h0 /\ lenN h0 = lenN (hdr ti len);
  rt_load : forall ti len rest left, rep ti len -> lenN (hdr ti len) <= left ->
    cfg_load c (hdr ti len ++ rest) left = Ok (ti, len, lenN (hdr ti len));
  rt_min : forall ti len, rep ti len -> cfg_min c <= lenN (hdr ti len)
}.

(* The states a loader on the buffer [m] can be brought into by the load API, also if calls fail. *)
(* [reach_next] includes calls that failed; the state after an error of a load_tl() that fails is not modelled *)
Inductive reach (c : cfg) (m : list N) : load -> Prop :=
| reach_start : reach c m (load_start m (lenN m))
| reach_restart g : reach c m g -> reach c m (mkLoad (ld_mem g) (ld_srclen g) (ld_ti g) (ld_len g) None)
| reach_next g g' rc : reach c m g -> load_next c g = (g', rc) -> rc = Ok tt \/ load_tl_total c -> reach c m g'
| reach_by_tag g g' ti rc : reach c m g -> load_next_by_tag_inst c g ti = (g', rc) -> reach c m g'.

(* end of the current item = start of the next one *)
Definition ld_pos (g : load) : N := match ld_val g with None => 0 | Some v => v + ld_len g end.

(* a format whose load_tl() yields only representable headers, which store_tl() would write the same way *)
Definition cfg_inv (c : cfg) (rep : tag_inst -> N -> Prop) (hdr : tag_inst -> N -> list N) : Prop :=
  forall m left ti len h, bytes_ok m -> left <= lenN m -> cfg_min c <= left ->
    cfg_load c m left = Ok (ti, len, h) -> rep ti len /\ takeN h m = hdr ti len.

(* [parse] with a tight budget: at most len/min + 1 calls of load_next are needed *)
Definition parse_fuel (c : cfg) (m : list N) : nat := S (N.to_nat (lenN m / cfg_min c)).

(* "the loader makes n successful steps, passing over items none of which matches ti" *)
Inductive skips (c : cfg) (ti : tag_inst) : load -> load -> Prop :=
| skips_refl g : skips c ti g g
| skips_step g g1 g2 v : load_next c g = (g1, Ok tt) -> ld_val g1 = Some v -> ti_match (ld_ti g1) ti = false ->
    skips c ti g1 g2 -> skips c ti g g2.
