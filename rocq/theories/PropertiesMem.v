(* PropertiesMem.v -- the decoded struct in memory (C59-C61). Specification: MemSpec.v; proofs: MemProofs.v, MemEncProofs.v.

   lk: what the functions of a leaf IE do on the memory of their member; la, ls: what they do in terms of values; ld: which value the
   bytes of a member stand for; be: byte order of the host; dsz: decoded_struct_size; dm: memory of the struct (or of the object
   that contains it at offset obj); erase / erase_str: the table without the offsets. *)
From Verif Require Import Base GtlvModel GtlvSpec DecEncModel DecEncSpec StrModel TestTables CStr GtlvInst MemModel MemSpec MemProofs MemEncProofs MemTest
  MemFinal.
Local Open Scope N_scope.

Section Mem.
Context {V K : Type}.
Variable lk : K -> mleaf.
Variable la : K -> leaf V.
Variable ls : K -> option (V -> strfn).
Variable ld : K -> list N -> V.
Variable be : bool.
Variable dsz : N.

(* ---------------------------------------------------------------- C59 *)
(* osmo_gtlvs_decode() into a zeroed struct, for every table whose members, flags and counts lie in the struct and do not overlap, and
   every input: the outcome is the one of the decoder of DecEncModel.v (C09-C16); no byte outside of the struct changes; on success
   members, presence flags and counts hold exactly the decoded values, at every depth. *)
Theorem C59_decode_into_memory sz ies c o obj m len dm :
  dsz < 2 ^ 32 -> (forall k, dec_ok lk la ld k) -> bytes_ok m ->
  layout_ok lk sz ies -> lenN dm = dsz -> obj + sz <= dsz -> (exists l, bytes_at obj sz dm l /\ Forall (fun b => b = 0) l) ->
  match gtlvs_decode c o (Some (map (erase la) ies)) m len with
  | Ok slots => exists dm', mgtlvs_decode lk be dsz c o obj (Some ies) m len dm = (dm', Ok tt)
                            /\ only_changed obj sz dm dm' /\ struct_held lk ld be false ies obj dm' slots
  | Err e => exists dm', mgtlvs_decode lk be dsz c o obj (Some ies) m len dm = (dm', Err e) /\ only_changed obj sz dm dm'
  | UB _ => True
  end.
Proof. exact (fun H1 H2 => decode_refines lk la ld be dsz H1 H2 sz ies c o obj m len dm). Qed.
(* So with leaf decoders that keep to their value, no assertion fails and nothing outside of struct and input is accessed. *)
Theorem C59_decode_memory_safe Tail sz ies c o obj d rest dm :
  dsz < 2 ^ 32 -> (forall k, dec_ok lk la ld k) -> bytes_ok (d ++ rest) ->
  layout_ok lk sz ies -> lenN dm = dsz -> obj + sz <= dsz -> (exists l, bytes_at obj sz dm l /\ Forall (fun b => b = 0) l) ->
  cfg_ok c -> tail_closed Tail -> Tail rest -> Forall (all_cfgs cfg_ok) (map (erase la) ies) ->
  Forall (all_leaves (leaf_local Tail)) (map (erase la) ies) -> Forall (all_leaves (leaf_safe Tail)) (map (erase la) ies) ->
  all_tables maxes_pos (map (erase la) ies) ->
  exists dm' r, mgtlvs_decode lk be dsz c o obj (Some ies) (d ++ rest) (lenN d) dm = (dm', r) /\ is_ub r = false /\ only_changed obj sz dm dm'.
Proof. exact (mem_decode_safe lk la ld be dsz Tail sz ies c o obj d rest dm). Qed.
Theorem C59_no_table c o obj m len dm : mgtlvs_decode lk be dsz c o obj None m len dm = (dm, Err ENOTSUP).
Proof. reflexivity. Qed.

(* ---------------------------------------------------------------- C60 *)
(* osmo_gtlvs_encode() / osmo_gtlvs_encode_to_str_buf() of a struct in memory do what they do for the values it holds (C14-C17, C56),
   also for counts larger than the arrays; padding and the contents of absent members do not matter; no assertion fails. *)
Theorem C60_encode_from_memory sz ies c cap obj buf slots dm :
  dsz < 2 ^ 32 -> (forall k, enc_ok lk la ld k) -> layout_ok lk sz ies -> lenN dm = dsz -> obj + sz <= dsz ->
  struct_held lk ld be true ies obj dm slots ->
  mgtlvs_encode lk be dsz dm c cap obj (Some ies) buf = gtlvs_encode c cap (Some (map (erase la) ies)) buf slots.
Proof. exact (fun H1 H2 H3 H4 => encode_refines lk ld be dsz H1 dm H4 la H2 sz ies c cap obj buf slots H3). Qed.
Theorem C60_print_from_memory names sz ies obj slots dm b n :
  dsz < 2 ^ 32 -> (forall k, str_ok lk ls ld k) -> layout_ok lk sz ies -> lenN dm = dsz -> obj + sz <= dsz ->
  struct_held lk ld be true ies obj dm slots ->
  mgtlvs_to_str lk be dsz dm names obj (Some ies) b n = gtlvs_to_str ls names (Some (map erase_str ies)) slots b n.
Proof. exact (fun H1 H2 H3 H4 => to_str_refines lk ld be dsz H1 dm H4 ls names H2 sz ies obj slots b n H3). Qed.
(* without a table (NULL), both return -ENOTSUP and put nothing into the buffer *)
Theorem C60_no_table c cap names obj buf dm b n : obj < dsz ->
  mgtlvs_encode lk be dsz dm c cap obj None buf = EErr buf ENOTSUP /\ mgtlvs_to_str lk be dsz dm names obj None b n = Ok (b, (-95)%Z).
Proof. intros H. unfold mgtlvs_encode, mgtlvs_to_str, membof. apply N.ltb_lt in H. rewrite H. split; reflexivity. Qed.
(* Two structs that hold the same values give the same bytes and the same text, whatever else is in their memory. *)
Theorem C60_only_values_matter names sz ies c cap obj obj' buf slots dm dm' b n :
  dsz < 2 ^ 32 -> (forall k, enc_ok lk la ld k) -> (forall k, str_ok lk ls ld k) -> layout_ok lk sz ies ->
  lenN dm = dsz -> lenN dm' = dsz -> obj + sz <= dsz -> obj' + sz <= dsz ->
  struct_held lk ld be true ies obj dm slots -> struct_held lk ld be true ies obj' dm' slots ->
  mgtlvs_encode lk be dsz dm c cap obj (Some ies) buf = mgtlvs_encode lk be dsz dm' c cap obj' (Some ies) buf
  /\ mgtlvs_to_str lk be dsz dm names obj (Some ies) b n = mgtlvs_to_str lk be dsz dm' names obj' (Some ies) b n.
Proof. exact (mem_only_values lk la ls ld be dsz names sz ies c cap obj obj' buf slots dm dm' b n). Qed.

(* ---------------------------------------------------------------- C61 *)
(* Round trip through memory: a struct in memory that holds [slots] encodes to the wire form of [slots], and decoding this into zeroed
   memory gives a struct that holds [slots] again. *)
Theorem C61_memory_roundtrip Tail sz ies c o cap obj obj' buf slots bs rest dm dm2 :
  dsz < 2 ^ 32 -> (forall k, dec_ok lk la ld k) -> (forall k, enc_ok lk la ld k) -> layout_ok lk sz ies ->
  cfg_ok c -> tail_closed Tail -> Tail rest -> bytes_ok (bs ++ rest) -> Forall (all_cfgs cfg_ok) (map (erase la) ies) ->
  Forall (all_leaves (leaf_local Tail)) (map (erase la) ies) -> all_tables table_ok (map (erase la) ies) ->
  lenN dm = dsz -> obj + sz <= dsz -> struct_held lk ld be true ies obj dm slots ->
  lenN dm2 = dsz -> obj' + sz <= dsz -> (exists l, bytes_at obj' sz dm2 l /\ Forall (fun b => b = 0) l) ->
  struct_repr Tail c (map (erase la) ies) slots bs -> lenN buf + lenN bs <= cap ->
  mgtlvs_encode lk be dsz dm c cap obj (Some ies) buf = EOk (buf ++ bs)
  /\ exists dm', mgtlvs_decode lk be dsz c o obj' (Some ies) (bs ++ rest) (lenN bs) dm2 = (dm', Ok tt)
       /\ only_changed obj' sz dm2 dm' /\ struct_held lk ld be true ies obj' dm' slots.
Proof. exact (mem_roundtrip lk la ld be dsz Tail sz ies c o cap obj obj' buf slots bs rest dm dm2). Qed.
(* What unordered decoding stored can be encoded and printed as it is: no member is left undefined. *)
Theorem C61_decoded_is_encodable sz ies c obj m len dm dm' c' cap buf names b n :
  dsz < 2 ^ 32 -> (forall k, dec_ok lk la ld k) -> (forall k, enc_ok lk la ld k) -> (forall k, str_ok lk ls ld k) -> bytes_ok m ->
  layout_ok lk sz ies -> lenN dm = dsz -> obj + sz <= dsz -> (exists l, bytes_at obj sz dm l /\ Forall (fun b => b = 0) l) ->
  Forall all_unordered (map (erase la) ies) -> all_tables small_table (map (erase la) ies) ->
  is_ub (gtlvs_decode c false (Some (map (erase la) ies)) m len) = false ->
  mgtlvs_decode lk be dsz c false obj (Some ies) m len dm = (dm', Ok tt) ->
  exists slots, gtlvs_decode c false (Some (map (erase la) ies)) m len = Ok slots
    /\ mgtlvs_encode lk be dsz dm' c' cap obj (Some ies) buf = gtlvs_encode c' cap (Some (map (erase la) ies)) buf slots
    /\ mgtlvs_to_str lk be dsz dm' names obj (Some ies) b n = gtlvs_to_str ls names (Some (map erase_str ies)) slots b n.
Proof. exact (mem_decoded_encodable lk la ls ld be dsz sz ies c obj m len dm dm' c' cap buf names b n). Qed.
End Mem.
Print Assumptions C59_decode_into_memory.
Print Assumptions C59_decode_memory_safe.
Print Assumptions C60_encode_from_memory.
Print Assumptions C60_no_table.
Print Assumptions C60_print_from_memory.
Print Assumptions C60_only_values_matter.
Print Assumptions C61_memory_roundtrip.
Print Assumptions C61_decoded_is_encodable.

(* ---------------------------------------------------------------- examples *)
(* struct decoded_msg of the project's own test (500 bytes) at offset 2 of an object of 504 bytes; both byte orders *)
Example C59_example be :
  layout_ok (t_mleaf be) 500 t_msg /\ map (erase t_leaf) t_msg = msg_ie_coding
  /\ (forall k, dec_ok (t_mleaf be) t_leaf (t_ld be) k) /\ (forall k, enc_ok (t_mleaf be) t_leaf (t_ld be) k) /\ (forall k, str_ok (t_mleaf be) t_str (t_ld be) k)
  /\ (exists l, bytes_at 2 500 t_zero l /\ Forall (fun b => b = 0) l)
  /\ gtlvs_decode t8l8v false (Some msg_ie_coding) (t_wire ++ [0]) (lenN t_wire) = Ok t_slots
  /\ mgtlvs_decode (t_mleaf be) be 504 t8l8v false 2 (Some t_msg) (t_wire ++ [0]) (lenN t_wire) t_zero = (t_decoded be, Ok tt)
  /\ struct_held (t_mleaf be) (t_ld be) be true t_msg 2 (t_decoded be) t_slots
  /\ firstn 12 (t_decoded false) = [0; 0; 23; 0; 0; 0; 97; 98; 0; 0; 0; 0] /\ firstn 12 (t_decoded true) = [0; 0; 0; 0; 0; 23; 97; 98; 0; 0; 0; 0].
Proof.
  exact (conj (t_layout be) (conj t_erase (conj (t_dec_ok be) (conj (t_enc_ok be) (conj (t_str_ok be) (conj t_zeroed (conj t_decode_slots (conj (t_decode_mem be)
    (conj (t_held_strict be) (conj eq_refl eq_refl)))))))))).
Qed.
Example C60_example be :
  mgtlvs_encode (t_mleaf be) be 504 (t_decoded be) t8l8v 100 2 (Some t_msg) [255] = EOk (255 :: t_wire)
  /\ mgtlvs_encode (t_mleaf be) be 504 (t_decoded be) t8l8v 100 2 None [255] = EErr [255] ENOTSUP.
Proof. destruct be; vm_compute; auto. Qed.

(* ex_table (mandatory, optional, repeated, nested) in 48 bytes: all hypotheses of C59_decode_memory_safe, C61_memory_roundtrip and
   C61_decoded_is_encodable hold; optional member 2 is absent, member 3 has two of at most four values *)
Example C61_example be :
  map (erase t_leaf) x_table = ex_table /\ layout_ok (t_mleaf be) 48 x_table
  /\ (exists l, bytes_at 0 48 (repeat 0 48) l /\ Forall (fun b => b = 0) l)
  /\ struct_held (t_mleaf be) (t_ld be) be true x_table 0 (x_decoded be) ex_struct
  /\ struct_repr AnyTail t8l8v ex_table ex_struct ex_bytes
  /\ tail_closed AnyTail /\ cfg_ok t8l8v /\ Forall (all_cfgs cfg_ok) ex_table
  /\ Forall (all_leaves (leaf_local AnyTail)) ex_table /\ Forall (all_leaves (leaf_safe AnyTail)) ex_table /\ all_tables table_ok ex_table
  /\ all_tables maxes_pos ex_table /\ all_tables small_table ex_table /\ Forall all_unordered ex_table
  /\ mgtlvs_encode (t_mleaf be) be 48 (x_decoded be) t8l8v 64 0 (Some x_table) [] = EOk ex_bytes
  /\ x_decoded false = [7;0;0;0; 0;0;0;0; 0;0;0;0; 2;0;0;0; 8;0;0;0; 9;0;0;0; 0;0;0;0; 0;0;0;0; 1;0;0;0; 10;0;0;0; 1;0;0;0; 11;0;0;0].
Proof.
  split; [exact x_erase|]. split; [exact (x_layout be)|]. split; [exact x_zeroed|]. split; [exact (x_held be)|]. split; [exact x_repr|].
  exact (x_rest be).
Qed.

(* ---------------------------------------------------------------- refutations *)
(* The struct has to be zeroed by the caller, though the API documentation calls it an output parameter: decoding the same message
   into a struct that was used before fails (unordered), or appends to the arrays of the previous message (ordered). *)
Theorem C59_any_output_struct_refuted : exists ies m dm dm' dm1,
  layout_ok (t_mleaf false) 20 ies /\ lenN dm = 20
  /\ mgtlvs_decode (t_mleaf false) false 20 t8l8v true 0 (Some ies) m (lenN m) (repeat 0 20) = (dm, Ok tt)
  /\ struct_held (t_mleaf false) (t_ld false) false false ies 0 dm [ [VLeaf (TInt 7)] ]
  /\ mgtlvs_decode (t_mleaf false) false 20 t8l8v true 0 (Some ies) m (lenN m) dm = (dm', Ok tt)
  /\ struct_held (t_mleaf false) (t_ld false) false false ies 0 dm' [ [VLeaf (TInt 7); VLeaf (TInt 7)] ]
  /\ fst (mgtlvs_decode (t_mleaf false) false 20 t8l8v false 0 (Some ies) (m ++ m ++ m) (3 * lenN m) (repeat 0 20)) = dm1
  /\ snd (mgtlvs_decode (t_mleaf false) false 20 t8l8v false 0 (Some ies) m (lenN m) dm1) = Err ENOTSUP.
Proof. exact reused_struct. Qed.
Print Assumptions C59_any_output_struct_refuted.
(* A repeated member with memb_array_pitch = 0 that has values is refused with EFAULT by encoding; decoding does not check and stores all values
   on top of each other. *)
Theorem C59_zero_pitch_not_refused_refuted : exists ies m dm,
  mgtlvs_decode (t_mleaf false) false 20 t8l8v false 0 (Some ies) m (lenN m) (repeat 0 20) = (dm, Ok tt)
  /\ gtlvs_decode t8l8v false (Some (map (erase t_leaf) ies)) m (lenN m) = Ok [ [VLeaf (TInt 7); VLeaf (TInt 8)] ]
  /\ ~ struct_held (t_mleaf false) (t_ld false) false false ies 0 dm [ [VLeaf (TInt 7); VLeaf (TInt 8)] ]
  /\ mgtlvs_encode (t_mleaf false) false 20 dm t8l8v 100 0 (Some ies) [] = EErr [] EFAULT.
Proof. exact zero_pitch. Qed.
Print Assumptions C59_zero_pitch_not_refused_refuted.
