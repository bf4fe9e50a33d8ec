(* RepSpec.v -- what decoding of any data with any table does, in particular tables in which several entries have the same tag
   ("the protocol may define this same IEI to follow again, with a different target struct member", gtlv_dec_enc.c:330-331) *)
From Verif Require Import Base GtlvModel GtlvSpec DecEncModel DecEncSpec.

(* ---------------------------------------------------------------- the IEs in any data *)

(* osmo_gtlv_load_next() gives, from the state [g] on, the IEs [items] one after the other; then the state is [g'] *)
Inductive leads (c : cfg) : load -> list item -> load -> Prop :=
| leads_nil g : leads c g [] g
| leads_cons g g1 v items g2 : load_next c g = (g1, Ok tt) -> ld_val g1 = Some v -> leads c g1 items g2 ->
    leads c g ((ld_ti g1, takeN (ld_len g1) (dropN v (ld_mem g1))) :: items) g2.
(* how data ends: properly; or with something that is not a whole IE, so that osmo_gtlv_load_next() fails with [e]; the tag of
   that may still be readable *)
Inductive ending := Proper | Broken (e : errno) (t : option tag_inst).
(* the data [d] consists of the IEs [items] and this ending *)
Definition reads (c : cfg) (d : list N) (items : list item) (en : ending) : Prop :=
  exists g, leads c (load_start d (lenN d)) items g /\
    match en with
    | Proper => exists g', load_next c g = (g', Ok tt) /\ ld_val g' = None
    | Broken e t => snd (load_next c g) = Err e /\ t = match load_peek_tag c g with Ok ti => Some ti | _ => None end
    end.
(* can a search for an IE tell that there is none? *)
Definition searchable (en : ending) : bool := match en with Proper => true | Broken ENOENT _ => true | Broken _ _ => false end.
(* the tag that comes next *)
Definition next_tag (items : list item) (en : ending) : option tag_inst :=
  match items, en with it :: _, _ => Some (fst it) | [], Broken _ t => t | [], Proper => None end.

Section Rep.
Context {V : Type}.
Definition has_tag (d : coding V) (ti : tag_inst) : Prop := ti_match (h_ti (head d)) ti = true.
Definition other_tag (d : coding V) (ti : tag_inst) : Prop := ti_match (h_ti (head d)) ti = false.
(* the IE [it] decodes to [v] as the IE of entry [d]; [r0] is the memory behind the data; [o]: in table order *)
Definition gives (c : cfg) (o : bool) (r0 : list N) (d : coding V) (it : item) (v : val V) : Prop :=
  dec_coding d c o (snd it ++ r0) (lenN (snd it)) = Ok v.

(* ---------------------------------------------------------------- in table order *)
(* The IEs [items], followed by the ending [en], fill the members of a struct, in table order. For each entry:
   absent: none of the remaining IEs has its tag, the end of the data is reached properly, and the entry allows it;
   single: the IEs before the first one with its tag are passed over, this one gives the value;
   run:    of a repeated member: the first IE with its tag and the ones with the same tag that follow directly, not more than
           the maximum, give the values; something else follows;
   jump:   as before, but the maximum is reached and yet another IE with the same tag follows directly: the next entry with the same
           tag continues with that IE. The entries between the two are not looked at: their members stay empty.
   IEs that remain at the end of the table are ignored. *)
Inductive fills_ordered (c : cfg) (r0 : list N) (en : ending) : list (coding V) -> list item -> list (slot V) -> Prop :=
| FO_end items : fills_ordered c r0 en [] items []
| FO_absent d ies items slots : searchable en = true -> Forall (fun it => other_tag d (fst it)) items -> low_of (head d) = 0 ->
    fills_ordered c r0 en ies items slots -> fills_ordered c r0 en (d :: ies) items ([] :: slots)
| FO_single d ies skipped it items v slots : h_multi (head d) = None -> Forall (fun it => other_tag d (fst it)) skipped -> has_tag d (fst it) ->
    gives c true r0 d it v -> fills_ordered c r0 en ies items slots -> fills_ordered c r0 en (d :: ies) (skipped ++ it :: items) ([v] :: slots)
| FO_run d ies mx mand skipped run items s slots : h_multi (head d) = Some (mx, mand) -> Forall (fun it => other_tag d (fst it)) skipped ->
    run <> [] -> Forall (fun it => has_tag d (fst it)) run -> lenN run <= mx -> match next_tag items en with Some t => other_tag d t | None => True end ->
    Forall2 (gives c true r0 d) run s -> fills_ordered c r0 en ies items slots -> fills_ordered c r0 en (d :: ies) (skipped ++ run ++ items) (s :: slots)
| FO_jump d ies1 d' ies2 mx mand skipped run it items s slots : h_multi (head d) = Some (mx, mand) -> Forall (fun it => other_tag d (fst it)) skipped ->
    Forall (fun it => has_tag d (fst it)) (run ++ [it]) -> lenN run = mx -> Forall2 (gives c true r0 d) run s ->
    Forall (fun d1 => other_tag d1 (fst it)) ies1 -> has_tag d' (fst it) -> fills_ordered c r0 en (d' :: ies2) (it :: items) slots ->
    fills_ordered c r0 en (d :: ies1 ++ d' :: ies2) (skipped ++ run ++ it :: items) (s :: map (fun _ => []) ies1 ++ slots).

(* In table order, the IEs [items] and the ending [en] do not fill the members, and the first thing that is wrong has the error code [e]:
   unsearchable: none of the IEs has the tag of the entry, and the search for one runs into data that is not an IE;
   missing:      none of the IEs has its tag, and the entry does not allow that: -ENOENT;
   value:        as many as there is room for of the IEs with its tag are decoded; one of them is refused;
   torn:         after the IEs with its tag comes a broken IE with the same tag;
   surplus:      there are more than the maximum, and no later entry has the same tag: -ENOTSUP;
   otherwise the entry is filled as above and a later entry is not. *)
Inductive fails_ordered (c : cfg) (r0 : list N) (en : ending) (e : errno) : list (coding V) -> list item -> Prop :=
| XO_unsearchable d ies items t : Forall (fun it => other_tag d (fst it)) items -> searchable en = false -> en = Broken e t -> fails_ordered c r0 en e (d :: ies) items
| XO_missing d ies items : Forall (fun it => other_tag d (fst it)) items -> searchable en = true -> 0 < low_of (head d) -> e = ENOENT -> fails_ordered c r0 en e (d :: ies) items
| XO_value d ies skipped run it items vs : Forall (fun it => other_tag d (fst it)) skipped -> Forall (fun it => has_tag d (fst it)) (run ++ [it]) ->
    lenN run < match h_multi (head d) with Some (mx, _) => mx | None => 1 end -> Forall2 (gives c true r0 d) run vs ->
    dec_coding d c true (snd it ++ r0) (lenN (snd it)) = Err e -> fails_ordered c r0 en e (d :: ies) (skipped ++ run ++ it :: items)
| XO_torn d ies mx mand skipped run vs t : h_multi (head d) = Some (mx, mand) -> Forall (fun it => other_tag d (fst it)) skipped ->
    run <> [] -> Forall (fun it => has_tag d (fst it)) run -> lenN run <= mx -> Forall2 (gives c true r0 d) run vs ->
    en = Broken e (Some t) -> has_tag d t -> fails_ordered c r0 en e (d :: ies) (skipped ++ run)
| XO_surplus d ies mx mand skipped run it items vs : h_multi (head d) = Some (mx, mand) -> Forall (fun it => other_tag d (fst it)) skipped ->
    Forall (fun it => has_tag d (fst it)) (run ++ [it]) -> lenN run = mx -> Forall2 (gives c true r0 d) run vs ->
    Forall (fun d1 => other_tag d1 (fst it)) ies -> e = ENOTSUP -> fails_ordered c r0 en e (d :: ies) (skipped ++ run ++ it :: items)
| XO_absent d ies items : searchable en = true -> Forall (fun it => other_tag d (fst it)) items -> low_of (head d) = 0 ->
    fails_ordered c r0 en e ies items -> fails_ordered c r0 en e (d :: ies) items
| XO_single d ies skipped it items v : h_multi (head d) = None -> Forall (fun it => other_tag d (fst it)) skipped -> has_tag d (fst it) ->
    gives c true r0 d it v -> fails_ordered c r0 en e ies items -> fails_ordered c r0 en e (d :: ies) (skipped ++ it :: items)
| XO_run d ies mx mand skipped run items s : h_multi (head d) = Some (mx, mand) -> Forall (fun it => other_tag d (fst it)) skipped ->
    run <> [] -> Forall (fun it => has_tag d (fst it)) run -> lenN run <= mx -> match next_tag items en with Some t => other_tag d t | None => True end ->
    Forall2 (gives c true r0 d) run s -> fails_ordered c r0 en e ies items -> fails_ordered c r0 en e (d :: ies) (skipped ++ run ++ items)
| XO_jump d ies1 d' ies2 mx mand skipped run it items s : h_multi (head d) = Some (mx, mand) -> Forall (fun it => other_tag d (fst it)) skipped ->
    Forall (fun it => has_tag d (fst it)) (run ++ [it]) -> lenN run = mx -> Forall2 (gives c true r0 d) run s ->
    Forall (fun d1 => other_tag d1 (fst it)) ies1 -> has_tag d' (fst it) -> fails_ordered c r0 en e (d' :: ies2) (it :: items) ->
    fails_ordered c r0 en e (d :: ies1 ++ d' :: ies2) (skipped ++ run ++ it :: items).

(* ---------------------------------------------------------------- in any order *)
(* the first [n] IEs with the tag of [d], and what remains without them *)
Definition first_of (d : coding V) (n : N) (items : list item) : list item := firstn (N.to_nat n) (items_for d items).
Fixpoint without (d : coding V) (n : nat) (items : list item) : list item :=
  match n, items with
  | S k, it :: items' => if ti_match (h_ti (head d)) (fst it) then without d k items' else it :: without d n items'
  | _, _ => items
  end.
(* Each entry in turn takes, of the IEs with its tag that the entries before it have left, as many as it can hold; these must be
   enough, and give the values. In the end only IEs with tags that are not in the table [all] may be left. *)
Inductive fills_unordered (c : cfg) (r0 : list N) (all : list (coding V)) : list (coding V) -> list item -> list (slot V) -> Prop :=
| FU_end items : Forall (fun it => Forall (fun d => other_tag d (fst it)) all) items -> fills_unordered c r0 all [] items []
| FU_entry d ies items s slots : low_of (head d) <= lenN s -> Forall2 (gives c false r0 d) (first_of d (cap_of (head d)) items) s ->
    fills_unordered c r0 all ies (without d (N.to_nat (cap_of (head d))) items) slots -> fills_unordered c r0 all (d :: ies) items (s :: slots).

(* the same without the requirement that these be enough: what the entries hold after the IEs [items], while more may follow *)
Inductive shared_out (c : cfg) (r0 : list N) (all : list (coding V)) : list (coding V) -> list item -> list (slot V) -> Prop :=
| SO_end items : Forall (fun it => Forall (fun d => other_tag d (fst it)) all) items -> shared_out c r0 all [] items []
| SO_entry d ies items s slots : Forall2 (gives c false r0 d) (first_of d (cap_of (head d)) items) s ->
    shared_out c r0 all ies (without d (N.to_nat (cap_of (head d))) items) slots -> shared_out c r0 all (d :: ies) items (s :: slots).
(* The first thing that is wrong with the IEs [items], which are followed by the ending [en], and its error code.
   surplus: an IE with a tag that is in the table, but all entries with this tag are full: -ENOTSUP;
   value:   an IE is refused by the first entry with its tag that is not full;
   torn:    all IEs are fine, but what follows is not an IE;
   missing: all IEs are fine, but not enough for some entry: -EINVAL. *)
Inductive fails_unordered (c : cfg) (r0 : list N) (ies : list (coding V)) (items : list item) (en : ending) (e : errno) : Prop :=
| XU_surplus items1 it items2 slots : items = items1 ++ it :: items2 -> shared_out c r0 ies ies items1 slots -> Exists (fun d => has_tag d (fst it)) ies ->
    Forall2 (fun d s => has_tag d (fst it) -> lenN s = cap_of (head d)) ies slots -> e = ENOTSUP -> fails_unordered c r0 ies items en e
| XU_value items1 it items2 ies1 d ies2 slots1 s slots2 : items = items1 ++ it :: items2 -> ies = ies1 ++ d :: ies2 -> shared_out c r0 ies ies items1 (slots1 ++ s :: slots2) ->
    Forall2 (fun d s => has_tag d (fst it) -> lenN s = cap_of (head d)) ies1 slots1 -> has_tag d (fst it) -> lenN s < cap_of (head d) ->
    dec_coding d c false (snd it ++ r0) (lenN (snd it)) = Err e -> fails_unordered c r0 ies items en e
| XU_torn slots t : shared_out c r0 ies ies items slots -> en = Broken e t -> fails_unordered c r0 ies items en e
| XU_missing slots : shared_out c r0 ies ies items slots -> en = Proper -> ~ Forall2 (fun d s => low_of (head d) <= lenN s) ies slots -> e = EINVAL ->
    fails_unordered c r0 ies items en e.

(* ---------------------------------------------------------------- structs that can be told from their IEs *)
Definition most (d : coding V) : N := match h_multi (head d) with Some (mx, _) => mx | None => 1 end.
(* no member with the tag of [d] is used *)
Definition unused (d : coding V) (ies : list (coding V)) (slots : list (slot V)) : Prop :=
  Forall2 (fun d' s => ti_match (h_ti (head d)) (h_ti (head d')) = true -> s = []) ies slots.
(* the first member that is used *)
Fixpoint next_used (ies : list (coding V)) (slots : list (slot V)) : option (coding V) :=
  match ies, slots with d :: ies', s :: slots' => if nonempty s then Some d else next_used ies' slots' | _, _ => None end.
(* A member may be less than full only if no later member with the same tag is used; in table order also if it is used itself and the
   next IE is another one: *)
Definition tells (o : bool) (d : coding V) (s : slot V) (ies : list (coding V)) (slots : list (slot V)) : Prop :=
  lenN s < most d ->
  unused d ies slots \/
  o = true /\ s <> [] /\ match next_used ies slots with Some d' => ti_match (h_ti (head d)) (h_ti (head d')) = false | None => True end.
Fixpoint struct_tells (o : bool) (ies : list (coding V)) (slots : list (slot V)) : Prop :=
  match ies, slots with d :: ies', s :: slots' => tells o d s ies' slots' /\ struct_tells o ies' slots' | _, _ => True end.
(* and so on at every depth, each struct in its own order *)
Fixpoint val_tells (o : bool) (cd : coding V) (v : val V) : Prop :=
  match cd, v with
  | CNest _ _ no ies, VStruct slots =>
    let o' := match no with OrdSame => o | OrdOrdered => true | OrdUnordered => false end in
    struct_tells o' ies slots /\
    (fix go (ies : list (coding V)) (slots : list (slot V)) : Prop :=
       match ies, slots with d :: ies', s :: slots' => Forall (val_tells o' d) s /\ go ies' slots' | _, _ => True end) ies slots
  | _, _ => True
  end.
Definition all_tell (o : bool) (ies : list (coding V)) (slots : list (slot V)) : Prop :=
  struct_tells o ies slots /\ Forall2 (fun d s => Forall (val_tells o d) s) ies slots.
(* what the table must be like: any tags *)
Definition table_any (ies : list (coding V)) : Prop := maxes_pos ies /\ small_table ies.
(* ... and none of its entries both optional and repeated *)
Definition table_mild (ies : list (coding V)) : Prop := table_any ies /\ Forall (fun d => match h_multi (head d) with Some _ => h_pres (head d) = false | None => True end) ies.
End Rep.
