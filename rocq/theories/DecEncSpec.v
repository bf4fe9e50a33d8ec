(* DecEncSpec.v -- what the struct decoder / encoder are supposed to do, independent of how they do it. *)
From Verif Require Import Base GtlvModel GtlvSpec DecEncModel.

Section Spec.
Context {V : Type}.

(* ---------------------------------------------------------------- leaf IEs *)

(* [Tail rest] constrains the memory that follows the TLV data (e.g. "contains a NUL byte" or nothing at all). *)
Definition tail_closed (Tail : list N -> Prop) : Prop := forall x r, Tail r -> Tail (x ++ r).

(* the decoder of a leaf never reads outside of its value *)
Definition leaf_safe (Tail : list N -> Prop) (l : leaf V) : Prop :=
  forall d v rest, lf_dec l = Some d -> Tail rest -> is_ub (d (v ++ rest) (lenN v)) = false.
(* its result depends on the value bytes only *)
Definition leaf_local (Tail : list N -> Prop) (l : leaf V) : Prop :=
  forall d v rest rest', lf_dec l = Some d -> Tail rest -> Tail rest' -> d (v ++ rest) (lenN v) = d (v ++ rest') (lenN v).
(* [bs] is the wire form of the value [x]: it is what the encoder writes given enough room, and what the decoder maps
   to [x] *)
Definition leaf_repr (Tail : list N -> Prop) (l : leaf V) (x : V) (bs : list N) : Prop :=
  (exists f, lf_enc l = Some f /\ forall room, lenN bs <= room -> f room x = (bs, None))
  /\ (exists d, lf_dec l = Some d /\ forall rest, Tail rest -> d (bs ++ rest) (lenN bs) = Ok x).

(* a property of all leaves / all formats / all tables inside a table *)
Fixpoint all_leaves (P : leaf V -> Prop) (cd : coding V) : Prop :=
  match cd with
  | CLeaf _ l => P l
  | CNest _ _ _ ies => fold_right (fun d acc => all_leaves P d /\ acc) True ies
  end.
Fixpoint all_cfgs (P : cfg -> Prop) (cd : coding V) : Prop :=
  match cd with
  | CLeaf _ _ => True
  | CNest _ nc _ ies => match nc with Some c => P c | None => True end
                        /\ fold_right (fun d acc => all_cfgs P d /\ acc) True ies
  end.
Definition tables (P : list (coding V) -> Prop) : coding V -> Prop :=
  fix go cd := match cd with
  | CLeaf _ _ => True
  | CNest _ _ _ ies => P ies /\ fold_right (fun d acc => go d /\ acc) True ies
  end.
Definition all_tables (P : list (coding V) -> Prop) (ies : list (coding V)) : Prop :=
  P ies /\ Forall (tables P) ies.

(* within one table no two entries have the same tag/instance *)
Definition distinct_tags (ies : list (coding V)) : Prop :=
  forall i j a b, (i < j)%nat -> nth_error ies i = Some a -> nth_error ies j = Some b ->
    ti_match (h_ti (head a)) (h_ti (head b)) = false.

(* ---------------------------------------------------------------- structs *)

(* how many values a member may hold: optional 0..1, repeated min..max, mandatory exactly 1 *)
Definition count_ok (h : chead) (n : N) : Prop :=
  match h_multi h with
  | Some (mx, mand) => n <= mx /\ (h_pres h = false -> mand <= n) /\ (h_pres h = true -> n <= 1)
  | None => if h_pres h then n <= 1 else n = 1
  end.

(* all members of a decoded struct hold an admissible number of values, at every nesting depth *)
Fixpoint counts_ok (cd : coding V) (v : val V) : Prop :=
  match cd, v with
  | CLeaf _ _, VLeaf _ => True
  | CNest _ _ _ ies, VStruct slots =>
    (fix go (ies : list (coding V)) (slots : list (slot V)) : Prop :=
       match ies, slots with
       | [], [] => True
       | d :: ies', s :: slots' => count_ok (head d) (lenN s) /\ Forall (counts_ok d) s /\ go ies' slots'
       | _, _ => False
       end) ies slots
  | _, _ => False
  end.
Definition struct_ok (ies : list (coding V)) (slots : list (slot V)) : Prop :=
  Forall2 (fun d s => count_ok (head d) (lenN s) /\ Forall (counts_ok d) s) ies slots.

(* [h] is the header of an IE with tag [ti] and [len] bytes of value in format [c] *)
Definition header_repr (c : cfg) (ti : tag_inst) (len : N) (h : list N) : Prop :=
  (forall avail, lenN h <= avail -> cfg_store c avail ti len = Ok h)
  /\ (forall avail, lenN h <= avail -> exists h0, cfg_store c avail ti 0 = Ok h0 /\ lenN h0 = lenN h)
  /\ (exists ti', ti_match ti' ti = true /\
        forall rest left, lenN h <= left -> cfg_load c (h ++ rest) left = Ok (ti', len, lenN h))
  /\ 1 <= lenN h /\ cfg_min c <= lenN h.

(* the wire form of a whole IE: header and value *)
Definition tlv_repr (c : cfg) (ti : tag_inst) (val bs : list N) : Prop :=
  exists h, header_repr c ti (lenN val) h /\ bs = h ++ val.

(* [bss]: wire forms of the list of values, one after the other *)
Definition concat_of (R : val V -> list N -> Prop) (vs : list (val V)) (bs : list N) : Prop :=
  exists bss, Forall2 R vs bss /\ bs = concat bss.

(* [bs] is the wire form of the value [v] of table entry [cd]; of a struct: its members' IEs in table order *)
Fixpoint val_repr (Tail : list N -> Prop) (cd : coding V) (c : cfg) (v : val V) (bs : list N) : Prop :=
  match cd, v with
  | CLeaf _ l, VLeaf x => leaf_repr Tail l x bs
  | CNest _ nc _ ies, VStruct slots =>
    let c' := match nc with Some x => x | None => c end in
    (fix go (ies : list (coding V)) (slots : list (slot V)) (bs : list N) : Prop :=
       match ies, slots with
       | [], [] => bs = []
       | d :: ies', s :: slots' =>
         exists b1 b2, bs = b1 ++ b2
           /\ count_ok (head d) (lenN s)
           /\ concat_of (fun v b => exists vb, val_repr Tail d c' v vb /\ tlv_repr c' (h_ti (head d)) vb b) s b1
           /\ go ies' slots' b2
       | _, _ => False
       end) ies slots bs
  | _, _ => False
  end.
Fixpoint struct_repr (Tail : list N -> Prop) (c : cfg) (ies : list (coding V)) (slots : list (slot V)) (bs : list N) : Prop :=
  match ies, slots with
  | [], [] => bs = []
  | d :: ies', s :: slots' =>
    exists b1 b2, bs = b1 ++ b2
      /\ count_ok (head d) (lenN s)
      /\ concat_of (fun v b => exists vb, val_repr Tail d c v vb /\ tlv_repr c (h_ti (head d)) vb b) s b1
      /\ struct_repr Tail c ies' slots' b2
  | _, _ => False
  end.

(* ---------------------------------------------------------------- decoding an item list *)

(* the items with the tag of table entry [d] *)
Definition items_for (d : coding V) (items : list item) : list item :=
  filter (fun it => ti_match (h_ti (head d)) (fst it)) items.

End Spec.

(* ---------------------------------------------------------------- what an encoder should have written *)
Section Shape.
Context {V : Type}.

(* A format with headers of fixed size [hs]: store_tl() writes [hdr ti len] iff the tag is valid, the length fits in
   the length field and there is room. *)
Definition fixed_format (c : cfg) (hs maxlen : N) (hdr : tag_inst -> N -> list N) (tag_ok : tag_inst -> Prop) : Prop :=
  (forall ti len, lenN (hdr ti len) = hs)
  /\ (forall ti len avail, tag_ok ti -> len <= maxlen -> hs <= avail -> cfg_store c avail ti len = Ok (hdr ti len))
  /\ (forall ti len avail h, cfg_store c avail ti len = Ok h -> lenN h = hs /\ hs <= avail)
  /\ (forall ti len avail u, cfg_store c avail ti len <> UB u).

(* [bs] consists of one TLV per stored value, in table order, each with a length field that equals the size of its
   value; the value of a single IE is what the IE's encoder wrote when it returned 0 *)
Definition tlvs_of (hdr : tag_inst -> N -> list N) (h : chead) (R : val V -> list N -> Prop) (s : list (val V)) (bs : list N) : Prop :=
  exists vbs, Forall2 R (match h_multi h with Some _ => s | None => firstn 1 s end) vbs
    /\ bs = concat (map (fun vb => hdr (h_ti h) (lenN vb) ++ vb) vbs).
Fixpoint val_shape (hdr : tag_inst -> N -> list N) (cd : coding V) (v : val V) (bs : list N) : Prop :=
  match cd, v with
  | CLeaf _ l, VLeaf x => exists f room, lf_enc l = Some f /\ f room x = (bs, None)
  | CNest _ _ _ ies, VStruct slots =>
    (fix go (ies : list (coding V)) (slots : list (slot V)) (bs : list N) : Prop :=
       match ies, slots with
       | d :: ies', s :: slots' =>
         exists b1 b2, bs = b1 ++ b2 /\ tlvs_of hdr (head d) (val_shape hdr d) s b1 /\ go ies' slots' b2
       | _, _ => bs = []
       end) ies slots bs
  | _, _ => False
  end.
Fixpoint struct_shape (hdr : tag_inst -> N -> list N) (ies : list (coding V)) (slots : list (slot V)) (bs : list N) : Prop :=
  match ies, slots with
  | d :: ies', s :: slots' =>
    exists b1 b2, bs = b1 ++ b2 /\ tlvs_of hdr (head d) (val_shape hdr d) s b1 /\ struct_shape hdr ies' slots' b2
  | _, _ => bs = []
  end.
(* all tags of a table, at any depth *)
Fixpoint all_tags (P : tag_inst -> Prop) (cd : coding V) : Prop :=
  match cd with
  | CLeaf h _ => P (h_ti h)
  | CNest h _ _ ies => P (h_ti h) /\ fold_right (fun d acc => all_tags P d /\ acc) True ies
  end.
End Shape.

(* ---------------------------------------------------------------- conditions on tables *)
Section Tables.
Context {V : Type}.
Implicit Type c : cfg.

(* a repeated IE may occur at least once *)
Definition max_pos (h : chead) : Prop := match h_multi h with Some (mx, _) => 1 <= mx | None => True end.

Definition maxes_pos : list (coding V) -> Prop := Forall (fun d => max_pos (head d)).

(* how many values a member can take / must have *)
Definition cap_of (h : chead) : N :=
  match h_multi h with Some (mx, _) => if h_pres h then N.min 1 mx else mx | None => 1 end.
Definition low_of (h : chead) : N :=
  if h_pres h then 0 else match h_multi h with Some (_, mand) => mand | None => 1 end.

(* no nested table asks for ordered decoding *)
Definition all_unordered : coding V -> Prop :=
  fix go cd := match cd with
  | CLeaf _ _ => True
  | CNest _ _ o ies => o <> OrdOrdered /\ fold_right (fun d acc => go d /\ acc) True ies
  end.

(* the number of table entries for which the unordered decoder has room to remember what it has seen *)
Definition small_table (ies : list (coding V)) : Prop := lenN ies <= 4096.

(* [s] is what the items with the tag of [d] decode to, in order, and there are admissibly many; [r0] is the memory behind *)
Definition member_of c (r0 : list N) (items : list item) (d : coding V) (s : slot V) : Prop :=
  count_ok (head d) (lenN s) /\
  Forall2 (fun it v => dec_coding d c false (snd it ++ r0) (lenN (snd it)) = Ok v) (items_for d items) s.

(* exchanging neighbouring items with different tags, any number of times *)
Inductive reorder : list item -> list item -> Prop :=
| reorder_refl l : reorder l l
| reorder_swap l1 a b l2 : ti_match (fst a) (fst b) = false -> reorder (l1 ++ a :: b :: l2) (l1 ++ b :: a :: l2)
| reorder_trans l1 l2 l3 : reorder l1 l2 -> reorder l2 l3 -> reorder l1 l3.

(* the heads for which ordered decoding does check the counts: not both optional flag and count, and at most one
   mandatory repetition *)
Definition head_plain (h : chead) : Prop :=
  match h_multi h with Some (_, mand) => h_pres h = false /\ mand <= 1 | None => True end.

Definition table_ok (ies : list (coding V)) : Prop := distinct_tags ies /\ maxes_pos ies /\ small_table ies.

Definition table_plain (ies : list (coding V)) : Prop :=
  distinct_tags ies /\ maxes_pos ies /\ small_table ies /\ Forall (fun d => head_plain (head d)) ies.

End Tables.

(* ---------------------------------------------------------------- well-formed structs *)
Section Wf.
Context {V : Type}.

(* the encoder writes the same bytes whenever it succeeds *)
Definition leaf_det (l : leaf V) (x : V) : Prop :=
  forall f r r' b b', lf_enc l = Some f -> f r x = (b, None) -> f r' x = (b', None) -> b = b'.
(* a value that its IE's own encoder and decoder can carry *)
Definition leaf_wf (Tail : list N -> Prop) (l : leaf V) (x : V) : Prop :=
  leaf_det l x /\ exists bs, leaf_repr Tail l x bs.
(* a decoded struct: admissible counts and values its IEs can carry, at every depth *)
Fixpoint val_wf (Tail : list N -> Prop) (cd : coding V) (v : val V) : Prop :=
  match cd, v with
  | CLeaf _ l, VLeaf x => leaf_wf Tail l x
  | CNest _ _ _ ies, VStruct slots =>
    (fix go (ies : list (coding V)) (slots : list (slot V)) : Prop :=
       match ies, slots with
       | [], [] => True
       | d :: ies', s :: slots' => count_ok (head d) (lenN s) /\ Forall (val_wf Tail d) s /\ go ies' slots'
       | _, _ => False
       end) ies slots
  | _, _ => False
  end.
Definition struct_wf (Tail : list N -> Prop) (ies : list (coding V)) (slots : list (slot V)) : Prop :=
  Forall2 (fun d s => count_ok (head d) (lenN s) /\ Forall (val_wf Tail d) s) ies slots.

(* all IEs with a valid tag and at most [maxlen] bytes have the header [hdr] *)
Definition headers_repr (c : cfg) (maxlen : N) (hdr : tag_inst -> N -> list N) (tag_ok : tag_inst -> Prop) : Prop :=
  forall ti len, tag_ok ti -> len <= maxlen -> header_repr c ti len (hdr ti len).
End Wf.

(* ---------------------------------------------------------------- IEs in table order *)
Section InOrder.
Context {V : Type}.

(* The IEs [items], taken in order, fill the members of a struct: for each table entry, in table order, either none of the
   remaining IEs has its tag, which the entry must allow; or one has: those before the first such IE are passed over, and this
   IE -- of a repeated member: this IE and the ones with the same tag that follow directly, not more than the maximum -- gives
   the value(s). IEs that come after all that are ignored. [r0] is the memory behind the data. *)
Inductive in_order (c : cfg) (r0 : list N) : list (coding V) -> list item -> list (slot V) -> Prop :=
| IO_end items : in_order c r0 [] items []
| IO_absent d ies items slots : items_for d items = [] -> low_of (head d) = 0 -> in_order c r0 ies items slots ->
    in_order c r0 (d :: ies) items ([] :: slots)
| IO_present d ies skipped run items s slots :
    items_for d skipped = [] -> run <> [] -> items_for d run = run ->
    match h_multi (head d) with
    | None => lenN run = 1
    | Some (mx, _) => lenN run <= mx /\ match items with it :: _ => ti_match (h_ti (head d)) (fst it) = false | [] => True end
    end ->
    Forall2 (fun it v => dec_coding d c true (snd it ++ r0) (lenN (snd it)) = Ok v) run s ->
    in_order c r0 ies items slots -> in_order c r0 (d :: ies) (skipped ++ run ++ items) (s :: slots).
End InOrder.
