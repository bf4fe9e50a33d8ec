(* TextRun.v -- calling the functions of the generated C file *)
From Coq Require Import String Ascii.
From Verif Require Import Base GtlvModel DecEncModel MemModel GenModel GenSpec GenProofs GenTabProofs GenCompile CRead TextModel TextSpec TextLex TextProofs TextTab TextFinal.
Local Open Scope string_scope.
Local Open Scope list_scope.

Ltac peel q E := destruct q as [|?c q]; [discriminate E|]; injection E as -> E.
Lemma lib_dec q a : In a ["_get_msg_coding"; "_ies_decode"; "_ies_encode"; "_ies_encode_to_str"] -> (q ++ a)%string <> "osmo_gtlvs_decode".
Proof. intros [<-|[<-|[<-|[<-|[]]]]] E; do 17 peel q E; destruct q; discriminate E. Qed.
Lemma lib_enc q a : In a ["_get_msg_coding"; "_ies_decode"; "_ies_encode"; "_ies_encode_to_str"] -> (q ++ a)%string <> "osmo_gtlvs_encode".
Proof. intros [<-|[<-|[<-|[<-|[]]]]] E; do 17 peel q E; destruct q; discriminate E. Qed.
Lemma lib_str q a : In a ["_get_msg_coding"; "_ies_decode"; "_ies_encode"; "_ies_encode_to_str"] -> (q ++ a)%string <> "osmo_gtlvs_encode_to_str_buf".
Proof. intros [<-|[<-|[<-|[<-|[]]]]] E; do 28 peel q E; destruct q; discriminate E. Qed.
Section Run.
Variable p : program.
Variable q : string.
Variable e : ctype.
Hypothesis HF : pr_funs p = rev (api_funs q e).
Lemma eqb_app a b : String.eqb (q ++ a) (q ++ b) = String.eqb a b.
Proof.
  destruct (String.eqb_spec a b) as [->|H]; [apply String.eqb_refl|]. apply String.eqb_neq. intros E. apply app_inj_prefix in E. exact (H E).
Qed.
Lemma find_fun s : find (fun g => String.eqb (fu_name g) (q ++ s)) (pr_funs p)
  = if String.eqb "_ies_encode_to_str" s then Some (str_fun q e (Some (str_body q))) else if String.eqb "_ies_encode" s then Some (enc_fun q e (Some (enc_body q)))
    else if String.eqb "_ies_decode" s then Some (dec_fun q e (Some (dec_body q))) else if String.eqb "_get_msg_coding" s then Some (get_fun q e (Some get_body)) else None.
Proof. rewrite HF. unfold api_funs. cbn [rev app find str_fun enc_fun dec_fun get_fun fu_name]. rewrite !eqb_app. reflexivity. Qed.
Lemma call_get n t : call p (S n) (q ++ "_get_msg_coding") [VNum t] = Some (match defs_get (pr_defs p) t with Some ies => VTab ies | None => VNull end).
Proof.
  cbn [call]. rewrite find_fun. change (String.eqb "_ies_encode_to_str" "_get_msg_coding") with false. change (String.eqb "_ies_encode" "_get_msg_coding") with false.
  change (String.eqb "_ies_decode" "_get_msg_coding") with false. change (String.eqb "_get_msg_coding" "_get_msg_coding") with true. cbn match.
  cbn [get_fun fu_body fu_params bind_args obind]. unfold get_body. cbn [split_semi obind rev app].
  cbn [run String.eqb Ascii.eqb Bool.eqb expr get find fst snd option_map].
  unfold defs_get. destruct (N.leb (defs_size (pr_defs p)) t); reflexivity.
Qed.
Lemma not_api f : (forall a, In a ["_get_msg_coding"; "_ies_decode"; "_ies_encode"; "_ies_encode_to_str"] -> (q ++ a)%string <> f) ->
  find (fun g => String.eqb (fu_name g) f) (pr_funs p) = None.
Proof.
  intros H. rewrite HF. unfold api_funs. cbn [rev app find str_fun enc_fun dec_fun get_fun fu_name].
  assert (X : forall a, In a ["_get_msg_coding"; "_ies_decode"; "_ies_encode"; "_ies_encode_to_str"] -> String.eqb (q ++ a) f = false) by (intros a Ha; apply String.eqb_neq; exact (H a Ha)).
  rewrite !X by (cbn [In]; tauto). reflexivity.
Qed.
Definition table_value (t : N) : value := match defs_get (pr_defs p) t with Some ies => VTab ies | None => VNull end.
Variable u : tyinfo.
Hypothesis HU : pr_types p ("union " ++ q ++ "_ies")%string = Some u.
Lemma array_size : String.eqb (q ++ "_get_msg_coding") "ARRAY_SIZE" = false.
Proof. apply String.eqb_neq. intros E. clear HF HU. generalize dependent q. intros r E. do 10 peel r E. destruct r; discriminate E. Qed.
Lemma call_dec n dst gtlv ord t cb cbd strs :
  call p (S (S n)) (q ++ "_ies_decode") [dst; gtlv; ord; VNum t; cb; cbd; strs]
  = Some (VCall "osmo_gtlvs_decode" [dst; VNum (ty_size u); VNum 0; gtlv; ord; table_value t; cb; cbd; strs]).
Proof.
  pose proof (call_get n t) as CG. pose proof (not_api "osmo_gtlvs_decode" (lib_dec q)) as NA.
  remember (S n) as m eqn:Em. assert (CL : forall vs, call p m "osmo_gtlvs_decode" vs = Some (VCall "osmo_gtlvs_decode" vs)) by (intros vs; rewrite Em; cbn [call]; rewrite NA; reflexivity).
  cbn [call]. rewrite find_fun. change (String.eqb "_ies_encode_to_str" "_ies_decode") with false. change (String.eqb "_ies_encode" "_ies_decode") with false. change (String.eqb "_ies_decode" "_ies_decode") with true. cbn match.
  cbn [dec_fun fu_body fu_params app err_params bind_args obind]. unfold dec_body, coding_of. cbn [split_semi obind rev app].
  cbn [run String.eqb Ascii.eqb Bool.eqb expr get find fst snd option_map omap obind args rev app split_comma pointee type_str String.concat]. rewrite ?array_size.
  change ("union" ++ " " ++ q ++ "_ies")%string with ("union " ++ q ++ "_ies")%string. rewrite HU. change (number "0") with (Some 0%N). cbn [obind]. rewrite CG. cbn [obind]. exact (CL _).
Qed.
Lemma call_enc n gtlv src t cb cbd strs :
  call p (S (S n)) (q ++ "_ies_encode") [gtlv; src; VNum t; cb; cbd; strs]
  = Some (VCall "osmo_gtlvs_encode" [gtlv; src; VNum (ty_size u); VNum 0; table_value t; cb; cbd; strs]).
Proof.
  pose proof (call_get n t) as CG. pose proof (not_api "osmo_gtlvs_encode" (lib_enc q)) as NA.
  remember (S n) as m eqn:Em. assert (CL : forall vs, call p m "osmo_gtlvs_encode" vs = Some (VCall "osmo_gtlvs_encode" vs)) by (intros vs; rewrite Em; cbn [call]; rewrite NA; reflexivity).
  cbn [call]. rewrite find_fun. change (String.eqb "_ies_encode_to_str" "_ies_encode") with false. change (String.eqb "_ies_encode" "_ies_encode") with true. cbn match.
  cbn [enc_fun fu_body fu_params app err_params bind_args obind]. unfold enc_body, coding_of. cbn [split_semi obind rev app].
  cbn [run String.eqb Ascii.eqb Bool.eqb expr get find fst snd option_map omap obind args rev app split_comma pointee type_str String.concat]. rewrite ?array_size.
  change ("union" ++ " " ++ q ++ "_ies")%string with ("union " ++ q ++ "_ies")%string. rewrite HU. change (number "0") with (Some 0%N). cbn [obind]. rewrite CG. cbn [obind]. exact (CL _).
Qed.
Lemma call_str n buf len src t strs :
  call p (S (S n)) (q ++ "_ies_encode_to_str") [buf; len; src; VNum t; strs]
  = Some (VCall "osmo_gtlvs_encode_to_str_buf" [buf; len; src; VNum (ty_size u); VNum 0; table_value t; strs]).
Proof.
  pose proof (call_get n t) as CG. pose proof (not_api "osmo_gtlvs_encode_to_str_buf" (lib_str q)) as NA.
  remember (S n) as m eqn:Em. assert (CL : forall vs, call p m "osmo_gtlvs_encode_to_str_buf" vs = Some (VCall "osmo_gtlvs_encode_to_str_buf" vs)) by (intros vs; rewrite Em; cbn [call]; rewrite NA; reflexivity).
  cbn [call]. rewrite find_fun. change (String.eqb "_ies_encode_to_str" "_ies_encode_to_str") with true. cbn match.
  cbn [str_fun fu_body fu_params app err_params bind_args obind]. unfold str_body, coding_of. cbn [split_semi obind rev app].
  cbn [run String.eqb Ascii.eqb Bool.eqb expr get find fst snd option_map omap obind args rev app split_comma pointee type_str String.concat]. rewrite ?array_size.
  change ("union" ++ " " ++ q ++ "_ies")%string with ("union " ++ q ++ "_ies")%string. rewrite HU. change (number "0") with (Some 0%N). cbn [obind]. rewrite CG. cbn [obind]. exact (CL _).
Qed.
End Run.
