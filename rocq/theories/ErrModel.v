(* ErrModel.v -- the error callback of src/libosmo-gtlv/gtlv_dec_enc.c: the same functions as DecEncModel.v, with the calls of
   err_cb() that RETURN_ERROR() (31-47) makes. ErrProofs.v shows that the results are those of DecEncModel.v. *)
From Verif Require Import Base GtlvModel DecEncModel.

(* One call of err_cb(): the tag and instance of the text, and the error code of the text. File, line and the explanation are left
   out. A list of calls is in the order in which they are made. *)
Definition reports := list (tag_inst * errno).
Definition rp (A : Type) : Type := res A * reports.
Definition rret {A} (x : A) : rp A := (Ok x, []).
Definition rub {A} (u : ub) : rp A := (UB u, []).
(* "return rc" without RETURN_ERROR() *)
Definition rsilent {A} (e : errno) : rp A := (Err e, []).
(* RETURN_ERROR(e, ti, ...), 31-47 *)
Definition return_error {A} (e : errno) (ti : tag_inst) : rp A := (Err e, [(ti, e)]).
(* "rc = f(); if (rc) RETURN_ERROR(rc, ti, ...)" *)
Definition on_error {A} (ti : tag_inst) (x : rp A) : rp A :=
  match x with (Err e, l) => (Err e, l ++ [(ti, e)]) | _ => x end.
Definition rbind {A B} (x : rp A) (f : A -> rp B) : rp B :=
  match x with
  | (Ok a, l) => let '(r, l') := f a in (r, l ++ l')
  | (Err e, l) => (Err e, l)
  | (UB u, l) => (UB u, l)
  end.

Section Err.
Context {V : Type}.

Record rentry := mkREntry { re_h : chead; re_dec : cfg -> bool -> list N -> N -> rp (val V) }.

(* one iteration of the loop of osmo_gtlvs_decode_unordered(), gtlv_dec_enc.c:111-241; DecEncModel.place *)
Fixpoint place_r (c : cfg) (es : list rentry) (idx allowed : N) (slots : list (slot V)) (ti : tag_inst) (m : list N) (len : N)
  : rp (list (slot V)) :=
  match es, slots with
  | e :: es', s :: slots' =>
    let h := re_h e in
    if negb (ti_match (h_ti h) ti) then
      rbind (place_r c es' (idx + 1) allowed slots' ti m len) (fun r => rret (s :: r))
    else
      let allowed' := allowed + match h_multi h with Some (mx, _) => mx | None => 1 end in
      if (h_pres h && nonempty s) || match h_multi h with Some (mx, _) => mx <=? lenN s | None => false end then
        rbind (place_r c es' (idx + 1) allowed' slots' ti m len) (fun r => rret (s :: r))
      else
        let plain := negb (h_pres h) && match h_multi h with Some _ => false | None => true end in
        (* CHECK_SEEN, 98-105 *)
        if plain && (seen_max <=? idx) then return_error ENOTSUP ti
        else if plain && nonempty s then
          rbind (place_r c es' (idx + 1) allowed' slots' ti m len) (fun r => rret (s :: r))
        else
          (* 213-215, 218-225 *)
          rbind (on_error ti (re_dec e c false m len)) (fun v =>
          if seen_max <=? idx then return_error ENOTSUP ti else rret ((s ++ [v]) :: slots'))
  | _, _ =>
    (* 173-178 *)
    if allowed =? 0 then rret slots else return_error ENOTSUP ti
  end.

(* the for(;;) loop of osmo_gtlvs_decode_unordered(), gtlv_dec_enc.c:107-241; also returns the final gtlv->ti *)
Fixpoint unord_loop_r (fuel : nat) (c : cfg) (es : list rentry) (g : load) (slots : list (slot V)) : rp (list (slot V) * tag_inst) :=
  match fuel with
  | O => rub OutOfFuel
  | S f =>
    match load_next c g with
    | (g', Err e) => return_error e (ld_ti g') (* 119-120 *)
    | (_, UB u) => rub u
    | (g', Ok _) =>
      match ld_val g' with
      | None => rret (slots, ld_ti g')
      | Some v => rbind (place_r c es 0 0 slots (ld_ti g') (dropN v (ld_mem g')) (ld_len g')) (fun slots' => unord_loop_r f c es g' slots')
      end
    end
  end.

(* the check for mandatory IEs, gtlv_dec_enc.c:243-258; [last] = gtlv->ti *)
Fixpoint check_mand_r (last : tag_inst) (idx : N) (es : list rentry) (slots : list (slot V)) : rp unit :=
  match es, slots with
  | e :: es', s :: slots' =>
    let h := re_h e in
    if h_pres h then check_mand_r last (idx + 1) es' slots'
    else
      match h_multi h with
      | Some (_, mand) => if lenN s <? mand then return_error EINVAL (h_ti h) else check_mand_r last (idx + 1) es' slots'
      | None =>
        if seen_max <=? idx then return_error ENOTSUP last
        else if nonempty s then check_mand_r last (idx + 1) es' slots' else return_error EINVAL (h_ti h)
      end
  | _, _ => rret tt
  end.

(* osmo_gtlvs_decode_unordered(), gtlv_dec_enc.c:83-260 *)
Definition decode_unordered_r (c : cfg) (es : list rentry) (m : list N) (srclen : N) : rp (list (slot V)) :=
  rbind (unord_loop_r (budget m srclen) c es (load_start m srclen) (map (fun _ => []) es)) (fun x =>
  rbind (check_mand_r (snd x) 0 es (fst x)) (fun _ => rret (fst x))).

(* as DecEncModel.omode; RJump carries the tag of the full entry, which is reported *)
Inductive rmode := ROuter | RInner | RJump (full : tag_inst).

(* osmo_gtlvs_decode_ordered(), gtlv_dec_enc.c:276-420 *)
Fixpoint ord_loop_r (fuel : nat) (mode : rmode) (c : cfg) (es : list rentry) (g : load) (slots : list (slot V)) : rp (list (slot V)) :=
  match fuel with
  | O => rub OutOfFuel
  | S f =>
    match es, slots with
    | e :: es', s :: slots' =>
      let h := re_h e in
      let decode_here :=
        if match h_multi h with Some (mx, _) => mx <=? lenN s | None => false end then rub OobWrite else
        (* 379-381, 384-388 *)
        rbind (on_error (h_ti h) (re_dec e c true (match ld_val g with Some v => dropN v (ld_mem g) | None => [] end) (ld_len g))) (fun v =>
        let s' := match h_multi h with Some _ => s ++ [v] | None => [v] end in
        match h_multi h with
        | None => rbind (ord_loop_r f ROuter c es' g slots') (fun r => rret (s' :: r))
        | Some _ =>
          match load_peek_tag c g with
          | UB u => rub u
          | Err _ => rbind (ord_loop_r f ROuter c es' g slots') (fun r => rret (s' :: r))
          | Ok peek =>
            if negb (ti_match peek (ld_ti g)) then rbind (ord_loop_r f ROuter c es' g slots') (fun r => rret (s' :: r))
            else
              match load_next c g with
              | (_, Err e) => rsilent e (* 413-415 *)
              | (_, UB u) => rub u
              | (g', Ok _) => ord_loop_r f RInner c es g' (s' :: slots')
              end
          end
        end) in
      match mode with
      | ROuter =>
        match load_next_by_tag_inst c g (h_ti h) with
        | (g', Ok _) => ord_loop_r f RInner c es g' slots
        | (_, UB u) => rub u
        | (_, Err ENOENT) =>
          if negb (h_pres h) && match h_multi h with Some (_, mand) => lenN s <? mand | None => true end
          then return_error ENOENT (h_ti h) (* 307-308 *)
          else rbind (ord_loop_r f ROuter c es' g slots') (fun r => rret ((if h_pres h then [] else s) :: r))
        | (_, Err e) => return_error e (h_ti h) (* 313 *)
        end
      | RInner =>
        if match h_multi h with Some (mx, _) => mx <=? lenN s | None => false end
        then rbind (ord_loop_r f (RJump (h_ti h)) c es' g slots') (fun r => rret (s :: r))
        else decode_here
      | RJump full =>
        if ti_match (ld_ti g) (h_ti h) then decode_here
        else rbind (ord_loop_r f (RJump full) c es' g slots') (fun r => rret (s :: r))
      end
    | _, _ =>
      match mode with
      | RJump full => return_error ENOTSUP full (* 341-343 *)
      | _ => rret slots
      end
    end
  end.
Definition decode_ordered_r (c : cfg) (es : list rentry) (m : list N) (srclen : N) : rp (list (slot V)) :=
  ord_loop_r (length es + budget m srclen) ROuter c es (load_start m srclen) (map (fun _ => []) es).

Definition decode_entries_r (c : cfg) (ordered : bool) (es : list rentry) (m : list N) (srclen : N) : rp (list (slot V)) :=
  if ordered then decode_ordered_r c es m srclen else decode_unordered_r c es m srclen.

(* the value part of one IE: lines 188-230 and 353-389. The RETURN_ERROR() of these lines is in the callers. *)
Fixpoint dec_coding_r (cd : coding V) : cfg -> bool -> list N -> N -> rp (val V) :=
  match cd with
  | CLeaf _ l => fun _ _ m len =>
    match lf_dec l with
    | None => rsilent EIO
    | Some d => match d m len with Ok v => rret (VLeaf v) | Err e => rsilent e | UB u => rub u end
    end
  | CNest _ nc o ies => fun c parent_ordered m len =>
    let c' := match nc with Some x => x | None => c end in
    let ordered := match o with OrdSame => parent_ordered | OrdOrdered => true | OrdUnordered => false end in
    rbind (decode_entries_r c' ordered (map (fun d => mkREntry (head d) (dec_coding_r d)) ies) m len) (fun r => rret (VStruct r))
  end.
Definition rentry_of (cd : coding V) : rentry := mkREntry (head cd) (dec_coding_r cd).

(* osmo_gtlvs_decode(), gtlv_dec_enc.c:434-447; None = NULL table, 439-440 *)
Definition gtlvs_decode_r (c : cfg) (ordered : bool) (ies : option (list (coding V))) (m : list N) (srclen : N) : rp (list (slot V)) :=
  match ies with
  | None => rsilent ENOTSUP
  | Some l => decode_entries_r c ordered (map rentry_of l) m srclen
  end.

(* ---------------------------------------------------------------- encoding *)
Record reentry := mkREEntry { ree_h : chead; ree_enc : cfg -> N -> list N -> val V -> eres * reports }.

(* gtlv_dec_enc.c:494-523 *)
Fixpoint enc_vals_r (c : cfg) (e : reentry) (p : put) (i : N) (vals : list (val V)) : pres * reports :=
  match vals with
  | [] => (POk p, [])
  | v :: vals' =>
    match put_tli c p (h_ti (ree_h e)) 0 with
    | (_, UB u) => (PUB u, [])
    | (p1, _) =>
      (* 500-502 *)
      if match h_multi (ree_h e) with Some (mx, _) => mx <=? i | None => false end then (PErr p1 ENOTSUP, [(h_ti (ree_h e), ENOTSUP)]) else
      match ree_enc e c (pt_cap p1) (pt_buf p1) v with
      | (EUB u, l) => (PUB u, l)
      (* 513-515, 518-519 *)
      | (EErr buf er, l) => (PErr (mkPut buf (pt_cap p1) (pt_last p1)) er, l ++ [(h_ti (ree_h e), er)])
      | (EOk buf, l) =>
        match put_update_tl c (mkPut buf (pt_cap p1) (pt_last p1)) with
        | (_, UB u) => (PUB u, l)
        | (p2, _) => let '(x, l') := enc_vals_r c e p2 (i + 1) vals' in (x, l ++ l')
        end
      end
    end
  end.
Fixpoint enc_entries_r (c : cfg) (es : list reentry) (p : put) (slots : list (slot V)) : pres * reports :=
  match es, slots with
  | e :: es', s :: slots' =>
    match enc_vals_r c e p 0 (to_encode (ree_h e) s) with
    | (POk p', l) => let '(x, l') := enc_entries_r c es' p' slots' in (x, l ++ l')
    | x => x
    end
  | _, _ => (POk p, [])
  end.
Definition enc_list_r (c : cfg) (cap : N) (es : list reentry) (buf : list N) (slots : list (slot V)) : eres * reports :=
  match enc_entries_r c es (mkPut buf cap None) slots with
  | (POk p, l) => (EOk (pt_buf p), l)
  | (PErr p e, l) => (EErr (pt_buf p) e, l)
  | (PUB u, l) => (EUB u, l)
  end.
(* gtlv_dec_enc.c:505-520 *)
Fixpoint enc_coding_r (cd : coding V) : cfg -> N -> list N -> val V -> eres * reports :=
  match cd with
  | CLeaf _ l => fun _ cap buf v =>
    match v, lf_enc l with
    | VLeaf x, Some f =>
      let '(bs, e) := f (tailroom buf cap) x in
      if tailroom buf cap <? lenN bs then (EUB MsgbAbort, [])
      else match e with None => (EOk (buf ++ bs), []) | Some er => (EErr (buf ++ bs) er, []) end
    | VLeaf _, None => (EUB NullDeref, [])
    | VStruct _, _ => (EUB AssertFail, [])
    end
  | CNest _ nc _ ies => fun c cap buf v =>
    match v with
    | VStruct slots =>
      enc_list_r (match nc with Some x => x | None => c end) cap (map (fun d => mkREEntry (head d) (enc_coding_r d)) ies) buf slots
    | VLeaf _ => (EUB AssertFail, [])
    end
  end.
Definition reentry_of (cd : coding V) : reentry := mkREEntry (head cd) (enc_coding_r cd).
(* osmo_gtlvs_encode(), gtlv_dec_enc.c:462-526; None = NULL table, 469-470 *)
Definition gtlvs_encode_r (c : cfg) (cap : N) (ies : option (list (coding V))) (buf : list N) (slots : list (slot V)) : eres * reports :=
  match ies with
  | None => (EErr buf ENOTSUP, [])
  | Some l => enc_list_r c cap (map reentry_of l) buf slots
  end.
End Err.
Arguments rentry V : clear implicits.
Arguments reentry V : clear implicits.
