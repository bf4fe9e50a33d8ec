(* TextSpec.v -- definitions and configurations whose names can be printed into a C file *)
From Coq Require Import String Ascii.
From Verif Require Import Base GtlvModel DecEncModel MemModel GenModel GenSpec CRead TextModel.
Local Open Scope string_scope.
Local Open Scope list_scope.

Definition chars (s : string) : list ascii := list_ascii_of_string s.
(* letters, digits and underscores *)
Definition word (s : string) : Prop := Forall (fun c => wordc c = true) (chars s).
Definition identifier (s : string) : Prop := word s /\ match s with String c _ => digit c = false | EmptyString => False end.
(* "unsigned int", "struct foo", "uint16_t" *)
Definition type_text (t : string) : Prop := exists ws, ws <> [] /\ Forall identifier ws /\ t = String.concat " " ws.
(* one or two words: "int", "enum foo" *)
Definition short_type (t : string) : Prop := identifier t \/ exists a b, identifier a /\ identifier b /\ t = (a ++ " " ++ b)%string.
Definition comment_safe (s : string) : Prop := forall a b, s <> (a ++ "*/" ++ b)%string.
(* comments and preprocessor directives only *)
Definition directives (s : string) : Prop := lex (chars s ++ [ascii_of_N 10]) = Some [].
Definition func_name (i : gie) : string := match g_denc (gd i) with Some f => f | None => tag_of i end.

Record printable (tc : tcfg) (ce : string -> option N) (ms : list gmsg) : Prop := {
  p_proto : identifier (gc_proto (tc_gen tc));
  p_tagp : identifier (gc_tagp (tc_gen tc)) /\ gc_tagp (tc_gen tc) <> "true";
  p_msgt : identifier (gc_msgt (tc_gen tc));
  (* names of functions are not names of tables *)
  p_tables : String.prefix "ies_in" (gc_proto (tc_gen tc)) = false;
  p_file : comment_safe (tc_file tc);
  p_hhdr : forall h, tc_hhdr tc = Some h -> directives h;
  p_chdr : forall h, tc_chdr tc = Some h -> directives h;
  p_enum : forall e, tc_enum tc = Some e -> short_type e;
  p_msgs : Forall (fun m => identifier (fst m)) ms;
  p_names : forall i, In i (all_ies ms) -> identifier (name_of i) /\ word (tag_of i) /\ word (func_name i);
  p_inst : forall i x, In i (all_ies ms) -> g_inst (gm i) = Some x -> identifier x /\ x <> "true" \/ exists n, number x = Some n /\ word x /\ ce x = Some n;
  p_leaf : forall i, In i (all_ies ms) -> gn i = None -> type_text (dtype (tc_gen tc) i);
  p_group : forall i, In i (all_ies ms) -> gn i <> None -> exists n, identifier n /\ dtype (tc_gen tc) i = ("struct " ++ n)%string;
  p_spec : forall i r, In i (all_ies ms) -> tc_spec tc (g_id (gd i)) = Some r -> comment_safe (tc_prefix tc ++ r)%string;
  (* foo_enc_to_str_bar() is the printing function of "bar" and the encoding function of "to_str_bar" *)
  p_tostr : gc_str (tc_gen tc) = true -> forall i j, In i (all_ies ms) -> In j (all_ies ms) -> gn i = None -> gn j = None ->
    func_name i <> ("to_str_" ++ func_name j)%string
}.
