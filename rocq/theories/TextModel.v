(* TextModel.v -- src/libosmo-gtlv/gtlv_gen.c: the text that the generator prints. GenModel.v has the same functions with declarations
   instead of text; TextProofs.v shows that reading the text gives those declarations. *)
From Coq Require Import String Ascii Decimal DecimalString.
From Verif Require Import Base GtlvModel DecEncModel MemModel GenModel CRead.
Local Open Scope string_scope.
Local Open Scope list_scope.

Definition L (s : string) : text := list_ascii_of_string s.
(* printf() with "%s" and "%u", whose arguments are given as text; \n and \t as in a C string literal *)
Fixpoint pf (f : text) (a : list text) : text :=
  match f with
  | [] => []
  | c :: f' =>
    if N.eqb (code c) 92 then match f' with d :: f'' => ascii_of_N (if N.eqb (code d) 110 then 10 else 9) :: pf f'' a | [] => [] end
    else if N.eqb (code c) 37 then match f', a with d :: f'', x :: a' => x ++ pf f'' a' | _, _ => [] end
    else c :: pf f' a
  end.
Definition printf (f : string) (a : list text) : text := pf (L f) a.
(* "%u" *)
Definition dec (n : N) : text := L (NilEmpty.string_of_uint (N.to_uint n)).

(* What GenModel.v leaves out of struct osmo_gtlv_gen_cfg, gtlv_gen.h:131-176, and struct osmo_gtlv_gen_ie (102-128); NULL = None.
   tc_file: __FILE__; tc_spec: .spec_ref of the definition at an address; tc_prefix: spec_ref_prefix as printed. *)
Record tcfg := mkTCfg {
  tc_gen : gcfg; tc_file : string; tc_prefix : string; tc_enum : option string; tc_hhdr : option string; tc_chdr : option string;
  tc_spec : N -> option string
}.

Section Text.
Variable tc : tcfg.
Local Notation cfg := (tc_gen tc).
Local Notation proto := (L (gc_proto cfg)).
(* "g_cfg->message_type_enum ? : "int"" *)
Definition enum_type : text := L (orelse (tc_enum tc) "int").

(* write_ie_members(), gtlv_gen.c:97-110: one round of the loop *)
Definition t_member (i : gie) : text :=
  let m := gm i in
  (if g_opt m then printf "\tbool %s_present;\n" [L (g_name m)] else [])
  ++ printf "\t%s %s" [L (dtype cfg i); L (g_name m)]
  ++ (if N.eqb (g_multi m) 0 then []
      else printf "[%u];\n" [dec (g_multi m)] ++ printf "\tunsigned int %s_count" [L (g_name m)])
  ++ printf ";\n" [].
Definition t_members (ies : list gie) : text := flat_map t_member ies.
(* write_ie_auto_structs(), 113-147: one round of the loop *)
Fixpoint t_auto_structs (i : gie) (s : seenl) : option (text * seenl) :=
  match i with
  | GIe m d None => Some ([], s)
  | GIe m d (Some ies) =>
    a <-? walk t_auto_structs ies s ;;
    b <-? seen (dtype cfg (GIe m d (Some ies))) None (snd a) ;;
    Some (fst a ++ (if fst b then []
      else printf "\n" []
        ++ match tc_spec tc (g_id d) with Some r => printf "/* %s%s */\n" [L (tc_prefix tc); L r] | None => [] end
        ++ printf "%s {\n" [L (dtype cfg (GIe m d (Some ies)))] ++ t_members ies ++ printf "};\n" []), snd b)
  end.
(* write_msg_union(), 174-196 *)
Definition t_msg_union (ms : list gmsg) : text :=
  flat_map (fun m : gmsg => printf "\nstruct %s_msg_%s {\n" [proto; L (fst m)] ++ t_members (snd m) ++ printf "};\n" []) ms
  ++ printf "\nunion %s_ies {\n" [proto]
  ++ flat_map (fun m : gmsg => printf "\tstruct %s_msg_%s %s;\n" [proto; L (fst m); L (fst m)]) ms
  ++ printf "};\n" [].
(* write_h(), 199-222; None = exit(1) *)
Definition text_h (ms : list gmsg) : option text :=
  a <-? walk_msgs t_auto_structs ms [] ;;
  Some (printf "/* THIS FILE IS GENERATED FROM %s */\n" [L (tc_file tc)]
    ++ printf "#include <stdint.h>\n" []
    ++ printf "#include <osmocom/gtlv/gtlv_dec_enc.h>\n" []
    ++ match tc_hhdr tc with Some h => printf "\n%s\n" [L h] | None => [] end
    ++ fst a ++ t_msg_union ms
    ++ printf "\nconst struct osmo_gtlv_coding *%s_get_msg_coding(%s message_type);\n" [proto; enum_type]
    ++ printf "\nint %s_ies_decode(union %s_ies *dst, struct osmo_gtlv_load *gtlv, bool tlv_ordered,\n\t%s message_type, osmo_gtlv_err_cb err_cb, void *err_cb_data, const struct value_string *iei_strs);\n"
         [proto; proto; enum_type]
    ++ printf "\nint %s_ies_encode(struct osmo_gtlv_put *gtlv, const union %s_ies *src,\n\t%s message_type, osmo_gtlv_err_cb err_cb, void *err_cb_data, const struct value_string *iei_strs);\n"
         [proto; proto; enum_type]
    ++ printf "\nint %s_ies_encode_to_str(char *buf, size_t buflen, const union %s_ies *src,\n\t%s message_type, const struct value_string *iei_strs);\n"
         [proto; proto; enum_type]).

(* write_extern_dec_enc(), 230-250: one round of the loop *)
Fixpoint t_externs (i : gie) (s : seenl) : option (text * seenl) :=
  match i with
  | GIe m d (Some ies) => walk t_externs ies s
  | GIe m d None =>
    let n := decenc (GIe m d None) in
    b <-? seen n None s ;;
    Some ((if fst b then []
      else printf "extern int %s_dec_%s(void *decoded_struct, void *decode_to, const struct osmo_gtlv_load *gtlv);\n" [proto; L n]
        ++ printf "extern int %s_enc_%s(struct osmo_gtlv_put *gtlv, const void *decoded_struct, const void *encode_from);\n" [proto; L n]
        ++ if gc_str cfg then printf "extern int %s_enc_to_str_%s(char *buf, size_t buflen, const void *encode_from);\n" [proto; L n] else []), snd b)
  end.
(* write_ies_array(), 258-293: one round of the loop; indent = "\t" at all calls; substruct: "" or the message's name and "." *)
Definition t_entry (obj sub : text) (i : gie) : text :=
  let m := gm i in
  let n := L (g_name m) in
  printf "\t{ { %s%s" [L (gc_tagp cfg); L (toupper (tagname i))]
  ++ match g_inst m with Some x => printf ", true, %s" [L x] | None => [] end
  ++ printf " },\n" []
  ++ printf "\t  .memb_ofs = offsetof(%s, %s%s),\n" [obj; sub; n]
  ++ match gn i with
     | Some _ => printf "\t  .nested_ies = ies_in_%s,\n" [L (tagname i)]
     | None =>
       printf "\t  .dec_func = %s_dec_%s,\n" [proto; L (decenc i)]
       ++ printf "\t  .enc_func = %s_enc_%s,\n" [proto; L (decenc i)]
       ++ if gc_str cfg then printf "\t  .enc_to_str_func = %s_enc_to_str_%s,\n" [proto; L (decenc i)] else []
     end
  ++ (if N.eqb (g_multi m) 0 then []
      else printf "\t  .memb_array_pitch = OSMO_MEMB_ARRAY_PITCH(%s, %s%s),\n" [obj; sub; n]
        ++ printf "\t  .has_count = true, .count_max = %u,\n" [dec (g_multi m)]
        ++ printf "\t  .count_mandatory = %u,\n" [dec (g_mmand m)]
        ++ printf "\t  .count_ofs = offsetof(%s, %s%s_count),\n" [obj; sub; n])
  ++ (if g_opt m then printf "\t  .has_presence_flag = true,\n" [] ++ printf "\t  .presence_flag_ofs = offsetof(%s, %s%s_present),\n" [obj; sub; n] else [])
  ++ printf "\t},\n" [].
(* write_nested_ies_array(), 305-325: one round of the loop *)
Fixpoint t_nested (i : gie) (s : seenl) : option (text * seenl) :=
  match i with
  | GIe m d None => Some ([], s)
  | GIe m d (Some ies) =>
    a <-? walk t_nested ies s ;;
    let n := tagname (GIe m d (Some ies)) in
    b <-? seen n (Some (g_id d)) (snd a) ;;
    Some (fst a ++ (if fst b then []
      else printf "\nstatic const struct osmo_gtlv_coding ies_in_%s[] = {\n" [L n]
        ++ flat_map (t_entry (L (dtype cfg (GIe m d (Some ies)))) []) ies ++ printf "\t{}\n" [] ++ printf "};\n" []), snd b)
  end.
(* write_c(), 330-403 *)
Definition t_msg_table (m : gmsg) : text :=
  printf "\nstatic const struct osmo_gtlv_coding ies_in_msg_%s[] = {\n" [L (fst m)]
  ++ flat_map (t_entry (printf "union %s_ies" [proto]) (printf "%s." [L (fst m)])) (snd m)
  ++ printf "\t{}\n};\n" [].
Definition text_c (ms : list gmsg) : option text :=
  a <-? walk_msgs t_externs ms [] ;;
  b <-? walk_msgs t_nested ms [] ;;
  Some (printf "/* THIS FILE IS GENERATED FROM %s */\n" [L (tc_file tc)]
    ++ printf "#include <stddef.h>\n" []
    ++ printf "#include <errno.h>\n" []
    ++ printf "#include <osmocom/core/utils.h>\n" []
    ++ printf "#include <osmocom/gtlv/gtlv.h>\n" []
    ++ printf "#include <osmocom/gtlv/gtlv_dec_enc.h>\n" []
    ++ printf "#include <osmocom/gtlv/gtlv_gen.h>\n" []
    ++ match tc_chdr tc with Some h => printf "\n%s\n" [L h] | None => [] end
    ++ printf "\n" []
    ++ fst a ++ fst b ++ flat_map t_msg_table ms
    ++ printf "\nstatic const struct osmo_gtlv_coding *msg_defs[] = {\n" []
    ++ flat_map (fun m : gmsg => printf "\t[%s%s] = ies_in_msg_%s,\n" [L (gc_msgt cfg); L (toupper (fst m)); L (fst m)]) ms
    ++ printf "};\n" []
    ++ printf "\nconst struct osmo_gtlv_coding *%s_get_msg_coding(%s message_type)\n{\n\tif (message_type >= ARRAY_SIZE(msg_defs))\n\t\treturn NULL;\n\treturn msg_defs[message_type];\n}\n"
         [proto; enum_type]
    ++ printf "\nint %s_ies_decode(union %s_ies *dst, struct osmo_gtlv_load *gtlv, bool tlv_ordered,\n\t%s message_type,\n\tosmo_gtlv_err_cb err_cb, void *err_cb_data, const struct value_string *iei_strs)\n{\n\treturn osmo_gtlvs_decode(dst, sizeof(*dst), 0, gtlv, tlv_ordered, %s_get_msg_coding(message_type),\n\t\terr_cb, err_cb_data, iei_strs);\n}\n"
         [proto; proto; enum_type; proto]
    ++ printf "\nint %s_ies_encode(struct osmo_gtlv_put *gtlv, const union %s_ies *src,\n\t%s message_type, osmo_gtlv_err_cb err_cb, void *err_cb_data, const struct value_string *iei_strs)\n{\n\treturn osmo_gtlvs_encode(gtlv, src, sizeof(*src), 0, %s_get_msg_coding(message_type),\n\t\terr_cb, err_cb_data, iei_strs);\n}\n"
         [proto; proto; enum_type; proto]
    ++ printf "\nint %s_ies_encode_to_str(char *buf, size_t buflen, const union %s_ies *src,\n\t%s message_type, const struct value_string *iei_strs)\n{\n\treturn osmo_gtlvs_encode_to_str_buf(buf, buflen, src, sizeof(*src), 0, %s_get_msg_coding(message_type), iei_strs);\n}\n"
         [proto; proto; enum_type; proto]).

(* osmo_gtlv_gen_main(), 406-422: what is printed, and the exit status of the program *)
Definition gen_main (argv : list string) (ms : list gmsg) : option (text * N) :=
  match argv with
  | _ :: a :: _ =>
    if String.eqb a "h" then t <-? text_h ms ;; Some (t, 0%N)
    else if String.eqb a "c" then t <-? text_c ms ;; Some (t, 0%N)
    else Some ([], 1%N)
  | _ => Some ([], 1%N)
  end.
End Text.
