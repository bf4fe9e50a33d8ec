(* HdrMemSpec.v -- messages in the memory of a msgb *)
From Verif Require Import Base IesModel MsgModel HdrMemModel.

(* the msgb in memory [b] has the contents, the capacity and the pointers of [m] *)
Definition holds (m : msgb) (b : cmsgb) : Prop :=
  cm_tail b <= lenN (cm_mem b) /\ takeN (cm_tail b) (cm_mem b) = mb_buf m /\ lenN (cm_mem b) = mb_cap m /\ cm_l3 b = mb_l3 m /\ cm_l4 b = mb_l4 m.
(* the same msgb but for the octet at offset i *)
Definition with_octet (i x : N) (m : msgb) : msgb :=
  mkMsgb (takeN i (mb_buf m) ++ [x] ++ dropN (i + 1) (mb_buf m)) (mb_cap m) (mb_l3 m) (mb_l4 m).
(* the last octet of the header of h, if that octet of memory was [old]: spare bits keep their old value *)
Definition last_octet (h : hdr) (old : N) : N :=
  match hd_seid h, hd_prio h with
  | Some _, Some p => 16 * (old / 16) + p mod 16
  | _, _ => old
  end.
(* all bytes behind the tail are zero, as after msgb_alloc() *)
Definition tail_zero (b : cmsgb) : Prop := Forall (fun x => x = 0) (dropN (cm_tail b) (cm_mem b)).
