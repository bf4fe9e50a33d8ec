(* MsgMemSpec.v -- a message handed to the user in memory is the message of the octet model *)
From Verif Require Import Base GtlvModel IesModel MsgModel StrModel MemModel GenModel PfcpMem PfcpMemFinal IeMemModel IeEncModel IeMsgModel MsgMemModel.

Inductive same_out (te : tenv) (r : generated) (be : bool) (sa_img : sa -> list N) (sa_rd : list N -> sa) (T : texts) : rx_out -> mm_out -> Prop :=
| so_msg h ies dm : union_holds r (cc_lk te be sa_img sa_rd T) (c_ld te be sa_rd) be (hd_type h) dm ies -> same_out te r be sa_img sa_rd T (RxMsg h ies) (MmMsg h dm)
| so_drop e : same_out te r be sa_img sa_rd T (RxDrop e) (MmDrop e)
| so_bad e : same_out te r be sa_img sa_rd T (RxBad e) (MmBad e).
