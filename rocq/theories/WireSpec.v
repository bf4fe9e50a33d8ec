(* WireSpec.v -- where everything that an endpoint sends, and everything that it gives to the application, comes from *)
From Verif Require Import Base GtlvModel DecEncModel IesModel TablesModel MsgModel MsgSpec EndpointModel EndpointSpec AcceptSpec ReadSpec PutSpec.

(* call [a] is, or makes in its callback, call [b] *)
Inductive makes : call -> call -> Prop :=
| M_self a : makes a a
| M_nested to h ies has_cb snd k x b : In x k -> makes x b -> makes (CTx to h ies has_cb snd k) b.
(* in event [ev] the application makes call [b], possibly from a callback *)
Definition event_makes (ev : event) (b : call) : Prop :=
  match ev with
  | ECall a => makes a b
  | ERx _ _ vs => exists i a, In a (v_ctx (vs i) ++ v_resp (vs i) ++ v_rx (vs i)) /\ makes a b
  | ETick _ => False
  | ETimer _ _ k => exists a, In a k /\ makes a b
  end.
(* datagrams are octets *)
Definition octets_only (evs : list event) : Prop := Forall (fun ev => match ev with ERx _ d _ => bytes_ok d | _ => True end) evs.
(* [p] is a complete message in datagram [d] (of which the endpoint reads at most the size of its buffer) *)
Definition message_in (d p : list N) : Prop := exists a b, takeN alloc_size d = a ++ p ++ b /\ framed p /\ bytes_ok p.

(* the contents [ies] of a message with IEs [l], with the endpoint's Node ID in place of any Node ID (IE type 60) *)
Fixpoint with_node (node : iev) (l : list ie) (ies : list (slot iev)) : list (slot iev) :=
  match l, ies with
  | q :: l', s :: ies' => (if iei_of q =? 60 then [VLeaf node] else s) :: with_node node l' ies'
  | _, _ => ies
  end.
(* the octets [bs] are one message, and mean header [h] with contents [ies] *)
Definition means (bs : list N) (h : hdr) (ies : list (slot iev)) : Prop := framed bs /\ bytes_ok bs /\ message_means bs (RxMsg h ies).
(* a message that can be encoded and means itself: its type is supported, header and contents are valid, and it is not larger than the buffer *)
Definition sendable (h : hdr) (ies : list (slot iev)) : Prop :=
  exists l, In (hd_type h, l) s_messages /\ valid_hdr h /\ valid_body l ies /\ header_size h + lenN (struct_image l ies) <= 2048.
