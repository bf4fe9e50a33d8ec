(* StrSpec.v -- what the human readable output is: the text of a struct, IE or message as one character list, and what it means
   that a "to_str" function writes a text into a buffer. Independent of the code: no string buffers, no offsets. *)
From Coq Require Import String.
From Verif Require Import Base GtlvModel DecEncModel DecEncSpec IesModel TablesModel MsgModel StrModel.

(* ---------------------------------------------------------------- buffers *)

(* Buffer contents [m] before and [m'] after writing text [s] into a buffer of size [n], in the manner of snprintf(): as many
   characters as fit, a terminating NUL, everything behind it untouched. The one exception: for an empty text the terminating
   NUL may be missing. *)
Definition printed (s : list N) (n : N) (m m' : list N) : Prop :=
  if n =? 0 then m' = m
  else
    let k := N.min (n - 1) (lenN s) in
    exists z, m' = takeN k s ++ z :: dropN (k + 1) m /\ (z = 0 \/ (s = [] /\ nth_error m 0 = Some z)).

(* the function writes the text [s] into any buffer, whatever its size, never beyond it, and returns the length of the text *)
Definition renders (f : strfn) (s : list N) : Prop :=
  forall m n, n <= lenN m -> exists m', f (Some m) n = Ok (Some m', Z.of_N (lenN s)) /\ printed s n m m'.
(* called with a NULL buffer, the function returns the length of the text *)
Definition measures (f : strfn) (s : list N) : Prop := f None 0 = Ok (None, Z.of_N (lenN s)).

(* whatever happens, the function does not fault and leaves alone what is not its buffer *)
Definition bounded (f : strfn) : Prop :=
  forall m n, n <= lenN m -> exists m' r, f (Some m) n = Ok (Some m', r) /\ lenN m' = lenN m /\ dropN n m' = dropN n m.

(* a NUL terminated string: the text and what follows its NUL *)
Definition c_string (m s : list N) : Prop := exists rest, m = s ++ 0 :: rest.

(* the number written in decimal / hexadecimal digits *)
Definition dec_value (l : list N) : N := fold_left (fun a c => 10 * a + (c - 48)) l 0.
Definition hex_digit (c : N) : N := if c <? 97 then c - 48 else c - 87.
Definition hex_value (l : list N) : N := fold_left (fun a c => 16 * a + hex_digit c) l 0.

(* ---------------------------------------------------------------- the text of a decoded struct *)

(* l1 sep l2 sep ... ln *)
Fixpoint join (sep : list N) (l : list (list N)) : list N :=
  match l with [] => [] | [x] => x | x :: l' => x ++ sep ++ join sep l' end.

Section Text.
Context {V K : Type}.
Variable leaf_text : K -> V -> list N. (* text of a single IE value *)
Variable names : N -> list N. (* name of an IE type *)

(* of one member: nothing if it is absent, else  'Name'=text  and for repeated IEs  'Name'={ text, text, ... } *)
Definition member_text (h : chead) (vals : list (list N)) : list N :=
  match vals with
  | [] => []
  | _ =>
    str " '" ++ names (ti_tag (h_ti h)) ++ str "'=" ++
    match h_multi h with Some _ => str "{ " ++ join (str ", ") vals ++ str " }" | None => join [] vals end
  end.
Fixpoint val_text (t : tcoding K) (v : val V) : list N :=
  match t, v with
  | TLeaf _ k, VLeaf x => leaf_text k x
  | TNest _ ies, VStruct slots =>
    str "{" ++
    (fix go (ies : list (tcoding K)) (slots : list (slot V)) : list N :=
       match ies, slots with
       | d :: ies', s :: slots' => member_text (thead d) (map (val_text d) s) ++ go ies' slots'
       | _, _ => []
       end) ies slots ++ str " }"
  | _, _ => []
  end.
Fixpoint struct_text (ies : list (tcoding K)) (slots : list (slot V)) : list N :=
  match ies, slots with
  | d :: ies', s :: slots' => member_text (thead d) (map (val_text d) s) ++ struct_text ies' slots'
  | _, _ => []
  end.

(* the struct belongs to the table: the leaves satisfy [P], mandatory members have a value, and if [cnt], no repeated member has
   more values than it can hold *)
Definition fits (cnt : bool) (h : chead) (n : N) : Prop :=
  match h_multi h with Some (mx, _) => cnt = true -> n <= mx | None => if h_pres h then n <= 1 else n = 1 end.
Fixpoint val_fits (cnt : bool) (P : K -> V -> Prop) (t : tcoding K) (v : val V) : Prop :=
  match t, v with
  | TLeaf _ k, VLeaf x => P k x
  | TNest _ ies, VStruct slots =>
    (fix go (ies : list (tcoding K)) (slots : list (slot V)) : Prop :=
       match ies, slots with
       | [], [] => True
       | d :: ies', s :: slots' => fits cnt (thead d) (lenN s) /\ Forall (val_fits cnt P d) s /\ go ies' slots'
       | _, _ => False
       end) ies slots
  | _, _ => False
  end.
Definition struct_fits (cnt : bool) (P : K -> V -> Prop) (ies : list (tcoding K)) (slots : list (slot V)) : Prop :=
  Forall2 (fun d s => fits cnt (thead d) (lenN s) /\ Forall (val_fits cnt P d) s) ies slots.
(* some member of the struct itself (not of a nested one) has more values than it can hold *)
Definition overfull (ies : list (tcoding K)) (slots : list (slot V)) : Prop :=
  Exists (fun p => match h_multi (thead (fst p)) with Some (mx, _) => mx < lenN (snd p) | None => False end) (combine ies slots).
End Text.

Definition opt (b : bool) (s : list N) : list N := if b then s else [].
(* tag or its name; [instance] if there is one *)
Definition tag_inst_text (ti : tag_inst) (names : option (N -> list N)) : list N :=
  match names with None => pf_u (ti_tag ti) | Some f => f (ti_tag ti) end ++ opt (ti_ipres ti) (str "[" ++ pf_u (ti_inst ti) ++ str "]").

(* ---------------------------------------------------------------- the texts of the PFCP IEs *)

(* the names of the bits that are set, joined by '+'; "-" if there are none. Bit i: bit (i mod 8) of octet (i / 8) *)
Definition bit_is_set (bits : list N) (i : N) : bool := N.testbit (nth (N.to_nat (i / 8)) bits 0) (i mod 8).
Definition bits_text (bits : list N) (names : list (N * list N)) : list N :=
  match map snd (filter (fun p => bit_is_set bits (fst p)) names) with
  | [] => str "-"
  | l => join (str "+") l
  end.

Section PfcpText.
Variable T : texts.

Definition addrs_text (a : ip_addrs) : list N :=
  match ia_v4p a, ia_v6p a with
  | false, false => str "empty:-addr"
  | true, false => str "v4:" ++ tx_sa T (ia_v4 a)
  | false, true => str "v6:" ++ tx_sa T (ia_v6 a)
  | true, true => str "v4:" ++ tx_sa T (ia_v4 a) ++ str ",v6:" ++ tx_sa T (ia_v6 a)
  end.
Definition node_id_text (x : node_id) : list N :=
  match x with
  | NodeV4 ip => str "v4:" ++ tx_sa T ip
  | NodeV6 ip => str "v6:" ++ tx_sa T ip
  | NodeFqdn s => str "fqdn:" ++ tx_quote T s
  | NodeOther t => str "unknown-node-id-type-" ++ pf_u t
  end.
Definition f_seid_text (x : f_seid) : list N := str "0x" ++ pf_x (fs_seid x) ++ str "," ++ addrs_text (fs_addr x).
Definition f_teid_text (x : f_teid) : list N :=
  match x with
  | FtChoose v4 v6 idp id => str "CHOOSE" ++ opt v4 (str "-v4") ++ opt v6 (str "-v6") ++ opt idp (str "-id" ++ pf_u id)
  | FtFixed teid a => str "TEID-0x" ++ pf_x teid ++ str "," ++ addrs_text a
  end.
Definition ohc_text (x : ohc) : list N :=
  bits_text (oh_desc x) ohc_strs ++ opt (oh_teidp x) (str ",TEID:0x" ++ pf_x (oh_teid x)) ++ str "," ++ addrs_text (oh_addr x)
  ++ opt (oh_portp x) (str ",port:" ++ pf_u (oh_port x)) ++ opt (oh_ctagp x) (str ",c-tag:" ++ pf_u (oh_ctag x))
  ++ opt (oh_stagp x) (str ",s-tag:" ++ pf_u (oh_stag x)).
Definition ohr_text (x : ohr) : list N :=
  tx_ohr T (or_desc x) ++ opt (or_extp x) (str ",ext-hdr-del:0x" ++ pf_x (nth 0 (or_ext x) 0)).
(* the code prints "chv4" for both flags, and a comma before all flags but the first one *)
Definition ue_ip_text (x : ue_ip) : list N :=
  opt (ue_chv4 x) (str "chv4") ++ opt (ue_chv6 x) (str ",chv4") ++ opt (ue_dest x) (str ",dst")
  ++ opt (ue_chv4 x || ue_chv6 x || ue_dest x) (str ",") ++ addrs_text (ue_addr x)
  ++ opt (ue_delegp x) (str ",ipv6-prefix-deleg:" ++ pf_x (ue_deleg x)) ++ opt (ue_plenp x) (str ",ipv6-prefix-len:" ++ pf_u (ue_plen x)).
Definition ie_text (k : kind) (v : iev) : list N :=
  match k, v with
  | KCause, IvNum x => tx_cause T x
  | KOffendingIe, IvNum x => tx_iei T x
  | (K8 | K16 | K32), IvNum x => pf_u x
  | K3gppIface, IvNum x => tx_3gpp T x
  | KSrcIface, IvNum x => tx_src T x
  | KDstIface, IvNum x => tx_dst T x
  | KNodeId, IvNode x => node_id_text x
  | KUpFF, IvBits l => bits_text l up_feature_strs
  | KCpFF, IvBits l => bits_text l cp_feature_strs
  | KApplyAction, IvBits l => bits_text l apply_action_strs
  | KFSeid, IvFseid x => f_seid_text x
  | KFTeid, IvFteid x => f_teid_text x
  | (KNetInst | KActPredef), IvStr s => tx_quote T s
  | KOhc, IvOhc x => ohc_text x
  | KOhr, IvOhr x => ohr_text x
  | KUeIp, IvUeip x => ue_ip_text x
  | _, _ => []
  end.

Definition opt_num_text (o : option N) (f : N -> list N) : list N := match o with Some x => f x | None => [] end.
Definition msg_hdr_text (h : hdr) : list N :=
  str "PFCPv" ++ pf_u (hd_version h) ++ str " " ++ tx_msgt T (hd_type h) ++ str " hdr={seq=" ++ pf_u (hd_seq h)
  ++ opt_num_text (hd_prio h) (fun p => str " prio=" ++ pf_u p) ++ opt_num_text (hd_seid h) (fun s => str " SEID=0x" ++ pf_x s)
  ++ str "} ies={".
Definition msg_text (ies : list pcoding) (m : pmsg) : list N :=
  msg_hdr_text (m_h m) ++ struct_text ie_text (tx_iei T) (map ttab ies) (m_ies m) ++ str " }".
Definition log_text (m : pmsg) (fi : option (list N * list N)) (cause : option N) : list N :=
  match fi with Some (name, state) => name ++ str "{" ++ state ++ str "}: " | None => tx_sa T (m_remote m) end
  ++ str (if m_rx m then "-rx->" else "<-tx-") ++ str " PFCP seq-" ++ pf_u (hd_seq (m_h m))
  ++ opt_num_text (hd_seid (m_h m)) (fun s => str " SEID-0x" ++ pf_x s)
  ++ str " " ++ tx_msgt T (hd_type (m_h m)) ++ opt_num_text cause (fun c => str ": " ++ tx_cause T c).
End PfcpText.

(* a value of an IE as far as printing is concerned: of the type of the IE, its bit fields have their size in the C struct.
   Enums, numbers, addresses and strings are arbitrary. *)
Definition printable (k : kind) (v : iev) : Prop :=
  match k, v with
  | (KCause | KOffendingIe | K8 | K16 | K32 | K3gppIface | KSrcIface | KDstIface), IvNum _ => True
  | KNodeId, IvNode _ => True
  | KUpFF, IvBits l => length l = 6%nat
  | KCpFF, IvBits l => length l = 1%nat
  | KApplyAction, IvBits l => length l = 2%nat
  | KFSeid, IvFseid _ => True
  | KFTeid, IvFteid _ => True
  | (KNetInst | KActPredef), IvStr _ => True
  | KOhc, IvOhc x => length (oh_desc x) = 2%nat
  | KOhr, IvOhr x => length (or_ext x) = 1%nat
  | KUeIp, IvUeip _ => True
  | _, _ => False
  end.
(* a UE IP Address without any of the flags that are printed before the address *)
Definition no_ue_flags (k : kind) (v : iev) : Prop :=
  match k, v with
  | KUeIp, IvUeip x => ue_chv4 x = false /\ ue_chv6 x = false /\ ue_dest x = false
  | _, _ => True
  end.
