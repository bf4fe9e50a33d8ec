(* Base.v -- common vocabulary of the model: bytes, big-endian integers, outcomes of a C function.

   Conventions used in every model file:
   - a byte is an [N] (well-formed when < 256, see [bytes_ok]);
   - a region of memory is the [list N] of the bytes which really exist from a pointer onwards;
   - lengths, offsets, tags, ... are [N] (unbounded; wrap-around is written out where it matters). *)
From Coq Require Export List NArith ZArith Lia Bool.
From Coq Require Export ZifyBool ZifyNat ZifyN.
Export ListNotations.
#[global] Open Scope N_scope.

Ltac Zify.zify_post_hook ::= Z.div_mod_to_equations.

Arguments N.add : simpl never.
Arguments N.sub : simpl never.
Arguments N.mul : simpl never.
Arguments N.div : simpl never.
Arguments N.modulo : simpl never.
Arguments N.leb : simpl never.
Arguments N.ltb : simpl never.
Arguments N.eqb : simpl never.
Arguments N.of_nat : simpl never.
Arguments N.to_nat : simpl never.
Arguments N.pow : simpl never.
Arguments N.testbit : simpl never.
Arguments N.lor : simpl never.
Arguments N.land : simpl never.

(* The negative return codes which occur in the modelled code. [EPERM1] is a plain "-1". *)
Inductive errno :=
| ENOENT | EBADMSG | ENOSPC | EINVAL | EMSGSIZE | ENOTSUP | EFAULT | EIO | ENOLINK | EPERM1 | ERANGE
| ENOMEM | EAFNOSUPPORT.

Definition errno_eqb (a b : errno) : bool :=
  match a, b with
  | ENOENT, ENOENT | EBADMSG, EBADMSG | ENOSPC, ENOSPC | EINVAL, EINVAL | EMSGSIZE, EMSGSIZE
  | ENOTSUP, ENOTSUP | EFAULT, EFAULT | EIO, EIO | ENOLINK, ENOLINK | EPERM1, EPERM1
  | ERANGE, ERANGE | ENOMEM, ENOMEM | EAFNOSUPPORT, EAFNOSUPPORT => true
  | _, _ => false
  end.

(* What can go wrong beyond a return code. None of these is a C return value:
   OobRead     a read outside of the memory object
   OobWrite    a write outside of the destination array
   MsgbAbort   msgb_put() without tailroom: libosmocore panics
   AssertFail  OSMO_ASSERT() fails: abort
   NullDeref   NULL pointer dereference
   DoubleFree  freeing or using a freed message
   OutOfFuel   the modelled loop did not end within the model's step budget; the theorems exclude this *)
Inductive ub := OobRead | OobWrite | MsgbAbort | AssertFail | NullDeref | DoubleFree | OutOfFuel.

Inductive res (A : Type) := Ok (a : A) | Err (e : errno) | UB (u : ub).
Arguments Ok {A} a.
Arguments Err {A} e.
Arguments UB {A} u.

Definition bind {A B} (x : res A) (f : A -> res B) : res B :=
  match x with Ok a => f a | Err e => Err e | UB u => UB u end.
Notation "x <- a ;; b" := (bind a (fun x => b)) (at level 61, a at next level, right associativity).

Definition is_ok {A} (x : res A) : bool := match x with Ok _ => true | _ => false end.
Definition is_ub {A} (x : res A) : bool := match x with UB _ => true | _ => false end.

Definition lenN {A} (l : list A) : N := N.of_nat (length l).
Definition dropN {A} (n : N) (l : list A) : list A := skipn (N.to_nat n) l.
Definition takeN {A} (n : N) (l : list A) : list A := firstn (N.to_nat n) l.

(* Read [n] bytes from the start of the memory region [m]; reading beyond its end is undefined behaviour. *)
Definition rdN (n : N) (m : list N) : res (list N) :=
  if n <=? lenN m then Ok (takeN n m) else UB OobRead.

Definition byte_ok (b : N) : Prop := b < 256.
Definition bytes_ok (l : list N) : Prop := Forall byte_ok l.

(* osmo_load16be() etc.: big endian number of a byte list; osmo_store16be() etc.: [w] low bytes of [x]. *)
Fixpoint be_get_acc (acc : N) (l : list N) : N :=
  match l with [] => acc | b :: l' => be_get_acc (acc * 256 + b) l' end.
Definition be_get (l : list N) : N := be_get_acc 0 l.
Fixpoint be_put (w : nat) (x : N) : list N :=
  match w with O => [] | S w' => be_put w' (x / 256) ++ [x mod 256] end.

Definition rd_be (n : N) (m : list N) : res N := l <- rdN n m ;; Ok (be_get l).

Fixpoint zeros (n : nat) : list N := match n with O => [] | S k => 0 :: zeros k end.
