(* CStr.v -- the C string functions the modelled code calls (libc, libosmocore; outside of /repo, hence modelled after
   their documented behaviour). *)
From Verif Require Import Base.

(* strlen(): index of the first NUL byte; without one the read runs past the end of the memory object *)
Fixpoint c_strlen (m : list N) : res N :=
  match m with
  | [] => UB OobRead
  | b :: m' => if b =? 0 then Ok 0 else n <- c_strlen m' ;; Ok (n + 1)
  end.

(* osmo_strlcpy(dst, src, siz) for siz > 0 of libosmocore: always takes strlen(src), then copies at most siz - 1
   characters. The result is the new string at dst without its NUL. *)
Definition osmo_strlcpy (src : list N) (siz : N) : res (list N) :=
  n <- c_strlen src ;; Ok (takeN (N.min (siz - 1) n) src).
