(* MemSpec.v -- how a C struct in memory holds the values of its members: layout, and what the bytes of a struct mean *)
From Verif Require Import Base GtlvModel DecEncModel StrModel MemModel.

(* a region of bytes: (offset, length) *)
Definition region : Type := N * N.
Definition apart (r s : region) : Prop := fst r + snd r <= fst s \/ fst s + snd s <= fst r.
Definition inside (sz : N) (r : region) : Prop := fst r + snd r <= sz.

(* the bytes at region r *)
Definition bytes_at (a n : N) (m l : list N) : Prop := exists x y, m = x ++ l ++ y /\ lenN x = a /\ lenN l = n.
(* m' differs from m in the region (a, n) only *)
Definition only_changed (a n : N) (m m' : list N) : Prop :=
  lenN m' = lenN m /\ forall x, x < a \/ a + n <= x -> nth_error m' (N.to_nat x) = nth_error m (N.to_nat x).

Section Spec.
Context {V K : Type}.
Variable lk : K -> mleaf.           (* the functions of a leaf on memory *)
Variable la : K -> leaf V.          (* the functions of a leaf on values *)
Variable ls : K -> option (V -> strfn).
Variable ld : K -> list N -> V.     (* the value that the bytes of a leaf member stand for *)
Variable be : bool.

(* ---------------------------------------------------------------- the table without the layout *)
Fixpoint erase (cd : mcoding K) : coding V :=
  match cd with
  | MLeaf h k => CLeaf (mh_h h) (la k)
  | MNest h _ nc o ies => CNest (mh_h h) nc o (map erase ies)
  end.
Fixpoint erase_str (cd : mcoding K) : tcoding K :=
  match cd with
  | MLeaf h k => TLeaf (mh_h h) k
  | MNest h _ _ _ ies => TNest (mh_h h) (map erase_str ies)
  end.

(* ---------------------------------------------------------------- layout *)

(* sizeof the type of a member (of one element, if it is an array) *)
Definition msize (cd : mcoding K) : N := match cd with MLeaf _ k => ml_size (lk k) | MNest _ sz _ _ _ => sz end.

(* the bytes that belong to a table entry: the member or array, the presence flag if any, the count if any *)
Definition regions (cd : mcoding K) : list region :=
  let h := mhd cd in
  (mh_ofs h, match h_multi (mh_h h) with Some (mx, _) => mx * mh_pitch h | None => msize cd end)
  :: (if h_pres (mh_h h) then [(mh_pofs h, 1)] else [])
  ++ match h_multi (mh_h h) with Some _ => [(mh_cofs h, 4)] | None => [] end.

(* A table fits a C struct of sz bytes: all regions lie in the struct and do not overlap; array elements do not overlap. *)
Definition table_laid (sz : N) (ies : list (mcoding K)) : Prop :=
  0 < sz
  /\ Forall (fun d => Forall (inside sz) (regions d)) ies
  /\ Forall (fun d => ForallOrdPairs apart (regions d)) ies
  /\ ForallOrdPairs (fun d e => Forall (fun r => Forall (apart r) (regions e)) (regions d)) ies
  /\ Forall (fun d => match h_multi (mh_h (mhd d)) with Some _ => msize d <= mh_pitch (mhd d) | None => True end) ies.
Fixpoint laid (cd : mcoding K) : Prop :=
  match cd with
  | MLeaf _ k => 0 < ml_size (lk k)
  | MNest _ sz _ _ ies => table_laid sz ies /\ fold_right (fun d acc => laid d /\ acc) True ies
  end.
Definition layout_ok (sz : N) (ies : list (mcoding K)) : Prop := table_laid sz ies /\ Forall laid ies.

(* ---------------------------------------------------------------- meaning of the bytes *)

(* The member of entry head [h] of the struct at address [obj] holds the values [s]: the flag says whether there are any, the
   count how many; array elements hold them one after the other (as far as the array reaches). R a m v: memory m holds the value v
   at address a. With [strict], a member without flag and count holds a value. *)
Definition slot_held (strict : bool) (h : mhead) (R : N -> list N -> val V -> Prop) (obj : N) (m : list N) (s : slot V) : Prop :=
  (h_pres (mh_h h) = true -> exists l, bytes_at (obj + mh_pofs h) 1 m l /\ y2b l = nonempty s)
  /\ match h_multi (mh_h h) with
     | Some (mx, _) =>
       (exists l, bytes_at (obj + mh_cofs h) 4 m l /\ y2u be l = lenN s)
       /\ forall i v, nth_error s i = Some v -> N.of_nat i < mx -> R (obj + mh_ofs h + N.of_nat i * mh_pitch h) m v
     | None =>
       match s with
       | [] => strict = true -> h_pres (mh_h h) = true
       | [v] => R (obj + mh_ofs h) m v
       | _ => False
       end
     end.
Fixpoint val_held (strict : bool) (cd : mcoding K) (a : N) (m : list N) (v : val V) : Prop :=
  match cd, v with
  | MLeaf _ k, VLeaf x => exists l, bytes_at a (ml_size (lk k)) m l /\ ld k l = x
  | MNest _ _ _ _ ies, VStruct slots =>
    (fix go (ies : list (mcoding K)) (slots : list (slot V)) : Prop :=
       match ies, slots with
       | [], [] => True
       | d :: ies', s :: slots' => slot_held strict (mhd d) (val_held strict d) a m s /\ go ies' slots'
       | _, _ => False
       end) ies slots
  | _, _ => False
  end.
Definition struct_held (strict : bool) (ies : list (mcoding K)) (a : N) (m : list N) (slots : list (slot V)) : Prop :=
  Forall2 (fun d s => slot_held strict (mhd d) (val_held strict d) a m s) ies slots.

(* ---------------------------------------------------------------- leaf functions *)

(* dec_func(), given a zeroed member, stores a representation of the decoded value, and returns the same code *)
Definition dec_ok (k : K) : Prop :=
  match lf_dec (la k), ml_dec (lk k) with
  | Some d, Some d' => forall old m len, lenN old = ml_size (lk k) -> Forall (fun b => b = 0) old -> bytes_ok m ->
      let '(new, r) := d' old m len in
      match d m len with
      | Ok v => lenN new = ml_size (lk k) /\ r = Ok tt /\ ld k new = v
      | Err e => lenN new = ml_size (lk k) /\ r = Err e
      | UB _ => True
      end
  | None, None => True
  | _, _ => False
  end.
(* enc_func() / enc_to_str_func() depend on the value that the bytes stand for *)
Definition enc_ok (k : K) : Prop :=
  match lf_enc (la k), ml_enc (lk k) with
  | Some f, Some f' => forall room b, lenN b = ml_size (lk k) -> f' room b = f room (ld k b)
  | None, None => True
  | _, _ => False
  end.
Definition str_ok (k : K) : Prop :=
  match ls k, ml_str (lk k) with
  | Some f, Some f' => forall b, lenN b = ml_size (lk k) -> forall buf n, f' b buf n = f (ld k b) buf n
  | None, None => True
  | _, _ => False
  end.
End Spec.

(* ---------------------------------------------------------------- leaf functions by a representation of their values *)
(* a member type: [cd_put old v] = the member after the value v was stored, [cd_get] = the value that the bytes stand for *)
Record codec (V : Type) := mkCodec { cd_size : N; cd_put : list N -> V -> list N; cd_get : list N -> V }.
Arguments mkCodec {V}. Arguments cd_size {V}. Arguments cd_put {V}. Arguments cd_get {V}.
Definition of_codec {V} (cd : codec V) (l : leaf V) (s : option (V -> strfn)) : mleaf :=
  mkMLeaf (cd_size cd)
    (option_map (fun d old m len => match d m len with
                                    | Ok v => (cd_put cd old v, Ok tt)
                                    | Err e => (old, Err e)
                                    | UB u => (old, UB u)
                                    end) (lf_dec l))
    (option_map (fun f room b => f room (cd_get cd b)) (lf_enc l))
    (option_map (fun f b => f (cd_get cd b)) s).
(* every value that the decoder yields survives being stored in a zeroed member *)
Definition codec_ok {V} (cd : codec V) (l : leaf V) : Prop :=
  match lf_dec l with
  | Some d => forall old m len v, lenN old = cd_size cd -> Forall (fun b => b = 0) old -> bytes_ok m -> d m len = Ok v ->
      lenN (cd_put cd old v) = cd_size cd /\ cd_get cd (cd_put cd old v) = v
  | None => True
  end.
