(* AcceptSpec.v -- which octet strings are acceptable IE values and messages (3GPP TS 29.244), with the numbers written out;
   independent of the code and of the tables of the model *)
From Verif Require Import Base IesModel IesSpec.

(* 1 if bit [k] (0 = least significant) of octet [i] is set *)
Definition obit (v : list N) (i : nat) (k : N) : N := if N.testbit (nth i v 0) k then 1 else 0.
Definition oset (v : list N) (i : nat) (k : N) : bool := N.testbit (nth i v 0) k.
Definition b2 (b : bool) : N := if b then 1 else 0.

(* a sequence of non-empty labels with their lengths, up to the end or up to an empty label *)
Definition name_wire (v : list N) : Prop :=
  exists labels tail, v = wire_labels labels ++ tail /\ Forall (fun l => l <> []) labels /\ (tail = [] \/ exists t, tail = 0 :: t).

(* the value of an IE of this type is long enough for what its flags announce. More octets than needed are allowed
   ("extendable" IEs), except where the length is fixed. *)
Definition ie_accept (k : kind) (v : list N) : Prop :=
  let len := lenN v in
  match k with
  | KCause => len = 1
  | KOffendingIe => len = 2
  | K8 | K3gppIface | KSrcIface | KDstIface | KCpFF | KApplyAction | KOhr => 1 <= len
  | K16 => 2 <= len
  | K32 => 4 <= len
  | KUpFF | KActPredef => True
  | KFSeid => (* V6 bit 0, V4 bit 1; SEID *)
      9 + 4 * obit v 0 1 + 16 * obit v 0 0 <= len
  | KFTeid => (* V4 bit 0, V6 bit 1, CH bit 2, CHID bit 3 *)
      1 <= len /\ if oset v 0 2 then 1 + obit v 0 3 <= len else 5 + 4 * obit v 0 0 + 16 * obit v 0 1 <= len
  | KUeIp => (* V6 bit 0, V4 bit 1, IPv6D bit 3, IP6PL bit 6 *)
      1 <= len /\ 1 + 4 * obit v 0 1 + 16 * obit v 0 0 + obit v 0 3 + obit v 0 6 <= len
  | KOhc => (* GTP-U/UDP/IPv4, GTP-U/UDP/IPv6, UDP/IPv4, UDP/IPv6, IPv4, IPv6, C-TAG, S-TAG *)
      2 <= len /\
      2 + 4 * b2 (oset v 0 0 || oset v 0 1) + 4 * b2 (oset v 0 0 || oset v 0 2 || oset v 0 4)
        + 16 * b2 (oset v 0 1 || oset v 0 3 || oset v 0 5) + 2 * b2 (oset v 0 2 || oset v 0 3)
        + 3 * obit v 0 6 + 3 * obit v 0 7 <= len
  | KNodeId => (* type octet: 0 IPv4, 1 IPv6, 2 FQDN *)
      match v with
      | 0 :: a => lenN a = 4
      | 1 :: a => lenN a = 16
      | 2 :: n => 1 <= lenN n <= 254 /\ name_wire n
      | _ => False
      end
  | KNetInst => 1 <= len <= 254 /\ name_wire v
  end.

(* IEs for which extra octets behind the announced contents do not change the decoded value. Not: fixed length IEs, IEs
   whose contents extend to their end, and bit fields shorter than what the implementation knows. *)
Definition extendable (k : kind) (v : list N) : Prop :=
  match k with
  | KCause | KOffendingIe | KNodeId | KNetInst | KActPredef => False
  | KOhr | KApplyAction => 2 <= lenN v
  | KUpFF => 6 <= lenN v
  | _ => True
  end.

(* ---------------------------------------------------------------- messages *)

(* how often an IE occurs: exactly once / at most once / between [min] and 32 times *)
Inductive occ := Once | Optional | Many (min : N).
Definition occ_ok (o : occ) (n : N) : Prop :=
  match o with Once => n = 1 | Optional => n <= 1 | Many min => min <= n <= 32 end.

(* an IE: number, occurrence, and the type of its value / the IEs it groups *)
Inductive ie := Ie (iei : N) (o : occ) (k : kind) | Grp (iei : N) (o : occ) (l : list ie).
Definition iei_of (p : ie) : N := match p with Ie i _ _ => i | Grp i _ _ => i end.
Definition occ_of (p : ie) : occ := match p with Ie _ o _ => o | Grp _ o _ => o end.

(* [v] is a sequence of IEs (type, value), each with a 16 bit type and a 16 bit length *)
Definition ie_octets (x : N * list N) : list N := [fst x / 256; fst x mod 256; lenN (snd x) / 256; lenN (snd x) mod 256] ++ snd x.
Definition ie_seq (v : list N) (l : list (N * list N)) : Prop :=
  v = concat (map ie_octets l) /\ Forall (fun x => fst x < 65536 /\ lenN (snd x) < 65536) l.
Definition values_of (iei : N) (l : list (N * list N)) : list (list N) := map snd (filter (fun x => fst x =? iei) l).

(* [v] is an acceptable value of the IE; IEs that are not expected are ignored *)
Fixpoint content_ok (p : ie) (v : list N) : Prop :=
  match p with
  | Ie _ _ k => ie_accept k v
  | Grp _ _ l => exists items, ie_seq v items /\
      fold_right (fun q acc => (let vs := values_of (iei_of q) items in occ_ok (occ_of q) (lenN vs) /\ Forall (content_ok q) vs) /\ acc) True l
  end.
Definition body_ok (l : list ie) (v : list N) : Prop :=
  exists items, ie_seq v items /\
    Forall (fun q => let vs := values_of (iei_of q) items in occ_ok (occ_of q) (lenN vs) /\ Forall (content_ok q) vs) l.

(* the IEs this implementation knows, with their numbers (TS 29.244 table 8.1.2-1) *)
Definition s_pdi : list ie :=
  [ Ie 20 Once KSrcIface; Ie 21 Optional KFTeid; Ie 22 Optional KNetInst; Ie 93 Optional KUeIp; Ie 131 Optional K8;
    Ie 160 Optional K3gppIface ].
Definition s_create_pdr : list ie :=
  [ Ie 56 Once K16; Ie 29 Once K32; Grp 2 Once s_pdi; Ie 95 Optional KOhr; Ie 108 Optional K32; Ie 106 Optional KActPredef ].
Definition s_pdr_teid : list ie := [ Ie 56 Once K16; Ie 21 Optional KFTeid ].
Definition s_upd_pdr : list ie :=
  [ Ie 56 Once K16; Ie 95 Optional KOhr; Grp 2 Optional s_pdi; Ie 108 Optional K32; Ie 106 Optional KActPredef ].
Definition s_forw (dest : occ) : list ie :=
  [ Ie 42 dest KDstIface; Ie 22 Optional KNetInst; Ie 84 Optional KOhc; Ie 131 Optional K8; Ie 160 Optional K3gppIface ].
Definition s_create_far : list ie := [ Ie 108 Once K32; Ie 44 Once KApplyAction; Grp 4 Optional (s_forw Once) ].
Definition s_upd_far : list ie := [ Ie 108 Once K32; Ie 44 Optional KApplyAction; Grp 11 Optional (s_forw Optional) ].

(* message types and their IEs *)
Definition s_messages : list (N * list ie) :=
  [ (1, [ Ie 96 Once K32 ]);
    (2, [ Ie 96 Once K32 ]);
    (5, [ Ie 60 Once KNodeId; Ie 96 Once K32; Ie 43 Optional KUpFF; Ie 89 Optional KCpFF ]);
    (6, [ Ie 60 Once KNodeId; Ie 19 Once KCause; Ie 96 Once K32; Ie 43 Optional KUpFF; Ie 89 Optional KCpFF ]);
    (9, [ Ie 60 Once KNodeId ]);
    (10, [ Ie 60 Once KNodeId; Ie 19 Once KCause ]);
    (50, [ Ie 60 Once KNodeId; Ie 57 Optional KFSeid; Grp 1 (Many 1) s_create_pdr; Grp 3 (Many 1) s_create_far ]);
    (51, [ Ie 60 Once KNodeId; Ie 19 Once KCause; Ie 40 Optional KOffendingIe; Ie 57 Optional KFSeid; Grp 8 (Many 0) s_pdr_teid ]);
    (52, [ Ie 57 Optional KFSeid; Grp 15 (Many 0) [ Ie 56 Once K16 ]; Grp 16 (Many 0) [ Ie 108 Once K32 ];
           Grp 1 (Many 0) s_create_pdr; Grp 3 (Many 0) s_create_far; Grp 9 (Many 0) s_upd_pdr; Grp 10 (Many 0) s_upd_far ]);
    (53, [ Ie 19 Once KCause; Ie 40 Optional KOffendingIe; Grp 8 (Many 0) s_pdr_teid; Grp 256 (Many 0) s_pdr_teid ]);
    (54, []);
    (55, [ Ie 19 Once KCause ]) ].
