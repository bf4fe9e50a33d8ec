(* TextProofs.v -- reading the generated text gives the declarations of GenModel.v *)
From Coq Require Import String Ascii Decimal DecimalString DecimalN DecimalPos DecimalFacts.
From Verif Require Import Base GtlvModel DecEncModel MemModel GenModel GenSpec GenProofs CRead TextModel TextSpec TextLex.
Local Open Scope string_scope.
Local Open Scope list_scope.

(* ---------------------------------------------------------------- numbers *)
Lemma string_of_uint_digits d : Forall (fun c => digit c = true) (L (NilEmpty.string_of_uint d)).
Proof. induction d; cbn [NilEmpty.string_of_uint L list_ascii_of_string]; constructor; try assumption; reflexivity. Qed.
Lemma digit_word c : digit c = true -> wordc c = true.
Proof. intros H. unfold wordc. rewrite H. reflexivity. Qed.
Lemma to_uint_nonnil n : N.to_uint n <> Decimal.Nil.
Proof. destruct n as [|p]; [discriminate|]. exact (DecimalPos.Unsigned.to_uint_nonnil p). Qed.
Lemma to_uint_norm n : unorm (N.to_uint n) = N.to_uint n.
Proof. rewrite <- (DecimalN.Unsigned.to_of (N.to_uint n)), DecimalN.Unsigned.of_to. reflexivity. Qed.
Definition dec_str (n : N) : string := NilEmpty.string_of_uint (N.to_uint n).
Lemma dec_piece n : piece_ok (V false (dec_str n)).
Proof.
  unfold dec_str. split.
  - pose proof (string_of_uint_digits (N.to_uint n)) as H. unfold word, chars. fold (L (NilEmpty.string_of_uint (N.to_uint n))).
    eapply Forall_impl; [|exact H]. intros c. exact (digit_word c).
  - pose proof (to_uint_nonnil n) as Z. destruct (N.to_uint n); try reflexivity. destruct (Z eq_refl).
Qed.
Lemma number_dec n : number (dec_str n) = Some n.
Proof.
  unfold number, dec_str. rewrite NilEmpty.usu. cbn [obind]. pose proof (to_uint_nonnil n) as Z. pose proof (to_uint_norm n) as M. pose proof (DecimalN.Unsigned.of_to n) as O.
  destruct (N.to_uint n) as [|u|u|u|u|u|u|u|u|u|u] eqn:E; try (rewrite O; reflexivity); [destruct (Z eq_refl)|].
  destruct u as [|u|u|u|u|u|u|u|u|u|u]; try (rewrite <- O; reflexivity); exfalso.
  all: cbn [unorm nzhead] in M; try discriminate M.
  revert M. generalize u. clear. intros u. assert (A : forall v, (nb_digits (unorm v) <= S (nb_digits v))%nat).
  { intros v. induction v; cbn; try lia. unfold unorm in *. cbn [nzhead]. destruct (nzhead v); cbn in *; lia. }
  intros M. pose proof (f_equal nb_digits M) as Q. cbn [nb_digits] in Q. 
  assert (B : nb_digits (unorm (Decimal.D0 u)) = nb_digits (unorm u)) by reflexivity. specialize (A u). unfold unorm in Q, A. cbn [nzhead] in Q. lia.
Qed.

(* ---------------------------------------------------------------- struct members *)
Lemma split_semi_ids ws : forall r cur, split_semi (map I ws ++ r) cur = split_semi r (rev (map I ws) ++ cur).
Proof.
  induction ws as [|w ws IH]; intros r cur; [reflexivity|]. cbn [map app split_semi]. rewrite IH. cbn [rev]. rewrite <- app_assoc.
  reflexivity.
Qed.
Lemma omap_ids ws : omap type_word (map I ws) = Some ws.
Proof. induction ws as [|w ws IH]; [reflexivity|]. cbn [map omap type_word obind]. rewrite IH. reflexivity. Qed.
Lemma decl_ids ws n : ws <> [] -> decl (map I ws ++ [I n]) = Some (ws, n).
Proof.
  intros H. unfold decl. rewrite rev_app_distr. cbn [rev app]. destruct (rev (map I ws)) as [|x r] eqn:E.
  - apply (f_equal (@rev tree)) in E. rewrite rev_involutive in E. destruct ws; [destruct (H eq_refl)|discriminate E].
  - rewrite <- E, rev_involutive, omap_ids. reflexivity.
Qed.
Lemma read_plain ws n : ws <> [] -> read_member (map I ws ++ [I n]) = Some (mkMemb (type_str ws) n None).
Proof. intros H. unfold read_member. rewrite rev_app_distr. cbn [rev app]. rewrite (decl_ids ws n H). reflexivity. Qed.
Lemma read_array ws n s k : ws <> [] -> number s = Some k -> read_member (map I ws ++ [I n; G Brk [Nm s]]) = Some (mkMemb (type_str ws) n (Some k)).
Proof.
  intros H E. unfold read_member. rewrite rev_app_distr. cbn [rev app]. rewrite rev_involutive. change ([I n; G Brk [Nm s]]) with ([I n] ++ [G Brk [Nm s]]).
  rewrite (decl_ids ws n H). cbn [obind]. rewrite E. reflexivity.
Qed.
Lemma rd_plain ws n : ws <> [] -> Forall identifier ws -> identifier n ->
  rd read_member (printf "\t%s %s;\n" [L (type_str ws); L n]) [mkMemb (type_str ws) n None].
Proof.
  intros Hw Fw Hn. exists (map TId ws ++ [TId n; TP Semi]), (map I ws ++ [I n; Pu Semi]), [map I ws ++ [I n]].
  split. { exact (lx_pf "\t%s %s;\n" [T ws; V true n] _ (Forall_cons (T ws) (conj Hw Fw) (Forall_cons _ (v_id n Hn) (Forall_nil _))) eq_refl). }
  split. { apply trees_app; [exact (trees_ids ws)|reflexivity]. }
  split. { rewrite split_semi_ids. cbn [split_semi obind]. rewrite app_nil_r. cbn [rev]. rewrite rev_involutive. reflexivity. }
  cbn [omap]. rewrite (read_plain ws n Hw). reflexivity.
Qed.
Lemma rd_array ws n k : ws <> [] -> Forall identifier ws -> identifier n ->
  rd read_member (printf "\t%s %s[%u];\n" [L (type_str ws); L n; dec k]) [mkMemb (type_str ws) n (Some k)].
Proof.
  intros Hw Fw Hn. exists (map TId ws ++ [TId n; TO Brk; TNum (dec_str k); TC Brk; TP Semi]), (map I ws ++ [I n; G Brk [Nm (dec_str k)]; Pu Semi]), [map I ws ++ [I n; G Brk [Nm (dec_str k)]]].
  split. { exact (lx_pf "\t%s %s[%u];\n" [T ws; V true n; V false (dec_str k)] _
             (Forall_cons (T ws) (conj Hw Fw) (Forall_cons _ (v_id n Hn) (Forall_cons _ (dec_piece k) (Forall_nil _)))) eq_refl). }
  split. { apply trees_app; [exact (trees_ids ws)|reflexivity]. }
  split. { rewrite split_semi_ids. cbn [split_semi obind]. rewrite app_nil_r. cbn [rev]. rewrite rev_involutive, <- app_assoc. reflexivity. }
  cbn [omap]. rewrite (read_array ws n _ k Hw (number_dec k)). reflexivity.
Qed.
Ltac pieces := repeat first [apply Forall_nil | apply Forall_cons; [first [apply v_id; assumption | apply dec_piece | assumption | split; assumption]|]].
Lemma rd_flag n : identifier n -> rd read_member (printf "\tbool %s_present;\n" [L n]) [mkMemb "bool" (n ++ "_present") None].
Proof. intros H. eapply (rd_pf read_member _ [V true n]); [pieces|vm_compute; reflexivity|vm_compute; reflexivity|vm_compute; reflexivity|vm_compute; reflexivity]. Qed.
Lemma rd_count n : identifier n -> rd read_member (printf "\tunsigned int %s_count;\n" [L n]) [mkMemb "unsigned int" (n ++ "_count") None].
Proof. intros H. eapply (rd_pf read_member _ [V true n]); [pieces|vm_compute; reflexivity|vm_compute; reflexivity|vm_compute; reflexivity|vm_compute; reflexivity]. Qed.
Ltac norm := cbv -[app]; repeat first [rewrite app_nil_r | progress cbn [app] | rewrite <- app_assoc]; reflexivity.
Lemma printf_plain (a b : text) : printf "\t%s %s" [a; b] ++ printf ";\n" [] = printf "\t%s %s;\n" [a; b].
Proof. norm. Qed.
Lemma printf_array (a b c : text) : printf "\t%s %s" [a; b] ++ (printf "[%u];\n" [c] ++ printf "\tunsigned int %s_count" [b]) ++ printf ";\n" []
  = printf "\t%s %s[%u];\n" [a; b; c] ++ printf "\tunsigned int %s_count;\n" [b].
Proof. norm. Qed.

Section Names.
Variable tc : tcfg.
Variable ce : string -> option N.
Variable ms : list gmsg.
Hypothesis HP : printable tc ce ms.
Local Notation cfg := (tc_gen tc).

Lemma dtype_words i : In i (all_ies ms) -> exists ws, ws <> [] /\ Forall identifier ws /\ dtype cfg i = String.concat " " ws.
Proof.
  intros H. destruct (gn i) eqn:E.
  - destruct (p_group tc ce ms HP i H ltac:(congruence)) as (n & Hn & ->). exists ["struct"; n]. split; [discriminate|]. split; [|reflexivity].
    constructor; [split; [repeat constructor|reflexivity]|constructor; [exact Hn|constructor]].
  - exact (p_leaf tc ce ms HP i H E).
Qed.
Lemma rd_member i : In i (all_ies ms) -> rd read_member (t_member tc i) (ie_members cfg i).
Proof.
  intros H. destruct (dtype_words i H) as (ws & W1 & W2 & W3). destruct (p_names tc ce ms HP i H) as (Hn & _ & _). unfold name_of in Hn.
  unfold t_member, ie_members. apply rd_app.
  - destruct (g_opt (gm i)); [exact (rd_flag _ Hn)|exact (rd_nil _)].
  - rewrite W3. fold (type_str ws). destruct (N.eqb (g_multi (gm i)) 0).
    + cbn [app]. rewrite printf_plain. exact (rd_plain ws _ W1 W2 Hn).
    + rewrite printf_array. exact (rd_app _ _ _ [_] [_] (rd_array ws _ _ W1 W2 Hn) (rd_count _ Hn)).
Qed.
Lemma rd_members ies : (forall i, In i ies -> In i (all_ies ms)) -> rd read_member (t_members tc ies) (members cfg ies).
Proof. intros H. apply rd_flat. intros i Hi. exact (rd_member i (H i Hi)). Qed.
End Names.

(* "head { members };" *)
Lemma rd_type k n pre body mem : (k = "struct" \/ k = "union") -> lx pre [TId k; TId n; TO Brc] -> rd read_member body mem ->
  rd read_item (pre ++ body ++ printf "};\n" []) [if String.eqb k "struct" then IStruct mem n else IUnion mem n].
Proof.
  intros K0 P (ts & tr & ch & H1 & H2 & H3 & H4).
  exists ([TId k; TId n] ++ (TO Brc :: ts ++ [TC Brc]) ++ [TP Semi]), ([I k; I n] ++ [G Brc tr] ++ [Pu Semi]), [[I k; I n; G Brc tr]].
  split. { assert (E : [TId k; TId n] ++ (TO Brc :: ts ++ [TC Brc]) ++ [TP Semi] = [TId k; TId n; TO Brc] ++ ts ++ [TC Brc; TP Semi]).
           { cbn [app]. rewrite <- app_assoc. reflexivity. }
           rewrite E. apply lx_app; [exact P|]. apply lx_app; [exact H1|]. exact (lx_pf "};\n" [] _ (Forall_nil _) eq_refl). }
  split. { apply trees_app; [reflexivity|]. apply trees_app; [exact (trees_group Brc ts tr H2)|reflexivity]. }
  split; [reflexivity|]. cbn [omap]. unfold read_item. cbn [rev app]. rewrite H3. cbn [obind]. rewrite H4. cbn [obind].
  destruct K0 as [->| ->]; reflexivity.
Qed.

Lemma in_occs i : In i (occs i).
Proof. destruct i as [m d [ies|]]; left; reflexivity. Qed.

(* ---------------------------------------------------------------- the loops over definitions *)
Section Same.
Context {X : Type}.
Variable P : text -> list X -> Prop.
Hypothesis P_nil : P [] [].
Hypothesis P_app : forall a b x y, P a x -> P b y -> P (a ++ b) (x ++ y).
Definition same (a : option (text * seenl)) (b : option (list X * seenl)) : Prop :=
  match a, b with Some (t, s), Some (x, s') => s = s' /\ P t x | None, None => True | _, _ => False end.
Lemma walk_same f g l : (forall i, In i l -> forall s, same (f i s) (g i s)) -> forall s, same (walk f l s) (walk g l s).
Proof.
  induction l as [|i l IH]; intros H s; [split; [reflexivity|exact P_nil]|]. cbn [walk]. pose proof (H i (or_introl eq_refl) s) as A.
  destruct (f i s) as [[t s1]|], (g i s) as [[x s2]|]; try exact A; try (destruct A; fail). destruct A as [<- A]. cbn [obind fst snd].
  pose proof (IH (fun j Hj => H j (or_intror Hj)) s1) as B. destruct (walk f l s1) as [[t2 s3]|], (walk g l s1) as [[x2 s4]|]; try exact B; try (destruct B; fail).
  cbn [obind fst snd]. destruct B as [<- B]. split; [reflexivity|]. exact (P_app _ _ _ _ A B).
Qed.
Lemma walk_msgs_same f g l : (forall m, In m l -> forall i, In i (snd m) -> forall s, same (f i s) (g i s)) -> forall s, same (walk_msgs f l s) (walk_msgs g l s).
Proof.
  induction l as [|m l IH]; intros H s; [split; [reflexivity|exact P_nil]|]. cbn [walk_msgs]. pose proof (walk_same f g (snd m) (H m (or_introl eq_refl)) s) as A.
  destruct (walk f (snd m) s) as [[t s1]|], (walk g (snd m) s) as [[x s2]|]; try exact A; try (destruct A; fail). destruct A as [<- A]. cbn [obind fst snd].
  pose proof (IH (fun j Hj => H j (or_intror Hj)) s1) as B. destruct (walk_msgs f l s1) as [[t2 s3]|], (walk_msgs g l s1) as [[x2 s4]|]; try exact B; try (destruct B; fail).
  cbn [obind fst snd]. destruct B as [<- B]. split; [reflexivity|]. exact (P_app _ _ _ _ A B).
Qed.
End Same.

(* ---------------------------------------------------------------- the header *)
Definition hi (h : hitem) (i : item) : Prop :=
  match h with HStruct t ms => exists n, t = ("struct " ++ n)%string /\ i = IStruct ms n | HUnion t ms => exists n, t = ("union " ++ n)%string /\ i = IUnion ms n end.
Definition rdh (s : text) (hs : list hitem) : Prop := exists its, rd read_item s its /\ Forall2 hi hs its.
Lemma rdh_nil : rdh [] [].
Proof. exists []. split; [exact (rd_nil _)|constructor]. Qed.
Lemma rdh_app a b x y : rdh a x -> rdh b y -> rdh (a ++ b) (x ++ y).
Proof. intros (i & A1 & A2) (j & B1 & B2). exists (i ++ j). split; [exact (rd_app _ _ _ _ _ A1 B1)|exact (Forall2_app A2 B2)]. Qed.
Lemma rdh_blank s : lx s [] -> rdh s [].
Proof. intros H. exists []. split; [exact (rd_blank _ s H)|constructor]. Qed.
Lemma rdh_flat {B} (g : B -> text) (h : B -> list hitem) l : (forall x, In x l -> rdh (g x) (h x)) -> rdh (flat_map g l) (flat_map h l).
Proof.
  induction l as [|x l IH]; intros H; [exact rdh_nil|]. cbn [flat_map]. apply rdh_app; [apply H; left; reflexivity|]. apply IH. intros y Hy. apply H. right. exact Hy.
Qed.
Lemma lx_nl : lx (printf "\n" []) [].
Proof. intros t. reflexivity. Qed.
Lemma word_id s : identifier s -> word s.
Proof. intros H. apply H. Qed.
Ltac pieces ::= repeat first [apply Forall_nil | apply Forall_cons; [first [apply v_id; assumption | apply dec_piece | apply word_id; assumption | assumption | split; assumption]|]].

Lemma map_flat {A B} (f : A -> B) l : map f l = flat_map (fun x => [f x]) l.
Proof. induction l as [|x l IH]; [reflexivity|]. cbn [map flat_map app]. f_equal. Qed.

Section Header.
Variable tc : tcfg.
Variable ce : string -> option N.
Variable ms : list gmsg.
Hypothesis HP : printable tc ce ms.
Local Notation cfg := (tc_gen tc).
Local Notation proto := (gc_proto (tc_gen tc)).

Lemma occs_nested m d ies j k : In j ies -> In k (occs j) -> In k (occs (GIe m d (Some ies))).
Proof. intros A B. cbn [occs]. right. apply in_flat_map. exists j. split; assumption. Qed.
Lemma structs_same i : (forall j, In j (occs i) -> In j (all_ies ms)) -> forall s, same rdh (t_auto_structs tc i s) (auto_structs cfg i s).
Proof.
  revert i. apply (gie_ind' (fun i => (forall j, In j (occs i) -> In j (all_ies ms)) -> forall s, same rdh (t_auto_structs tc i s) (auto_structs cfg i s))).
  { intros m d _ s. split; [reflexivity|exact rdh_nil]. }
  intros m d ies IH H s. cbn [t_auto_structs auto_structs]. set (i := GIe m d (Some ies)) in *.
  assert (HI : In i (all_ies ms)) by exact (H i (occs_self i)).
  assert (HN : forall j, In j ies -> In j (all_ies ms)) by (intros j Hj; apply H; exact (occs_nested m d ies j j Hj (occs_self j))).
  pose proof (walk_same rdh rdh_nil rdh_app (t_auto_structs tc) (auto_structs cfg) ies) as W.
  assert (W' := W (fun j Hj => proj1 (Forall_forall _ _) IH j Hj (fun k Hk => H k (occs_nested m d ies j k Hj Hk))) s). clear W IH.
  destruct (walk (t_auto_structs tc) ies s) as [[t s1]|], (walk (auto_structs cfg) ies s) as [[x s2]|]; try exact W'; try (destruct W'; fail).
  destruct W' as [<- A]. cbn [obind fst snd]. destruct (seen (dtype cfg i) None s1) as [[b s3]|]; [|exact Logic.I]. cbn [obind fst snd same]. split; [reflexivity|].
  apply rdh_app; [exact A|]. destruct b; [exact rdh_nil|]. destruct (p_group tc ce ms HP i HI ltac:(discriminate)) as (n & Hn & En).
  apply (rdh_app _ _ [] [_]); [exact (rdh_blank _ lx_nl)|]. apply (rdh_app _ _ [] [_]).
  { destruct (tc_spec tc (g_id d)) as [r|] eqn:Er; [|exact rdh_nil]. apply rdh_blank. apply lx_spec. exact (p_spec tc ce ms HP i r HI Er). }
  rewrite En. exists [IStruct (members cfg ies) n]. split; [|constructor; [exists n; split; reflexivity|constructor]].
  refine (rd_type "struct" n _ _ _ (or_introl eq_refl) _ (rd_members tc ce ms HP ies HN)).
  change ("struct " ++ n)%string with (String.concat " " ["struct"; n]).
  refine (lx_pf "%s {\n" [T ["struct"; n]] _ _ _); [|reflexivity]. constructor; [|constructor]. split; [discriminate|]. constructor; [split; [repeat constructor|reflexivity]|constructor; [exact Hn|constructor]].
Qed.
Lemma union_same : rdh (t_msg_union tc ms) (msg_items cfg ms).
Proof.
  unfold t_msg_union, msg_items. pose proof (p_proto tc ce ms HP) as Hp. pose proof (proj1 (Forall_forall _ _) (p_msgs tc ce ms HP)) as Hm.
  apply rdh_app; [rewrite map_flat|].
  - apply rdh_flat. intros m Hin. specialize (Hm m Hin). exists [IStruct (members cfg (snd m)) (proto ++ "_msg_" ++ fst m)].
    split; [|constructor; [eexists; split; reflexivity|constructor]].
    refine (rd_type "struct" _ _ _ _ (or_introl eq_refl) _ (rd_members tc ce ms HP (snd m) _)).
    + refine (lx_pf _ [V true proto; W (fst m)] _ _ _); [|vm_compute; reflexivity]. pieces.
    + intros i Hi. apply in_flat_map. exists m. split; [exact Hin|]. apply in_flat_map. exists i. split; [exact Hi|exact (occs_self i)].
  - exists [IUnion (map (fun m : gmsg => mkMemb (msg_struct cfg (fst m)) (fst m) None) ms) (proto ++ "_ies")]. split; [|constructor; [eexists; split; reflexivity|constructor]].
    refine (rd_type "union" _ _ _ _ (or_intror eq_refl) _ _).
    + refine (lx_pf _ [V true proto] _ _ _); [|vm_compute; reflexivity]. pieces.
    + rewrite map_flat. apply rd_flat. intros m Hin. specialize (Hm m Hin).
      refine (rd_pf read_member _ [V true proto; W (fst m); V true (fst m)] _ _ _ _ _ _ _ _ _); [pieces|vm_compute; reflexivity..].
Qed.
End Header.

(* ---------------------------------------------------------------- the functions of the generated files *)
Definition get_fun (p : string) (e : ctype) (b : option (list tree)) : cfun :=
  mkFun ["const"; "struct"; "osmo_gtlv_coding"; "*"] (p ++ "_get_msg_coding") [(e, "message_type")] b.
Definition err_params : list (ctype * string) :=
  [(["osmo_gtlv_err_cb"], "err_cb"); (["void"; "*"], "err_cb_data"); (["const"; "struct"; "value_string"; "*"], "iei_strs")].
Definition dec_fun (p : string) (e : ctype) (b : option (list tree)) : cfun :=
  mkFun ["int"] (p ++ "_ies_decode")
    ([(["union"; (p ++ "_ies")%string; "*"], "dst"); (["struct"; "osmo_gtlv_load"; "*"], "gtlv"); (["bool"], "tlv_ordered"); (e, "message_type")] ++ err_params) b.
Definition enc_fun (p : string) (e : ctype) (b : option (list tree)) : cfun :=
  mkFun ["int"] (p ++ "_ies_encode")
    ([(["struct"; "osmo_gtlv_put"; "*"], "gtlv"); (["const"; "union"; (p ++ "_ies")%string; "*"], "src"); (e, "message_type")] ++ err_params) b.
Definition str_fun (p : string) (e : ctype) (b : option (list tree)) : cfun :=
  mkFun ["int"] (p ++ "_ies_encode_to_str")
    [(["char"; "*"], "buf"); (["size_t"], "buflen"); (["const"; "union"; (p ++ "_ies")%string; "*"], "src"); (e, "message_type");
     (["const"; "struct"; "value_string"; "*"], "iei_strs")] b.
Definition get_body : list tree :=
  [I "if"; G Par [I "message_type"; Pu Ge; I "ARRAY_SIZE"; G Par [I "msg_defs"]]; I "return"; I "NULL"; Pu Semi;
   I "return"; I "msg_defs"; G Brk [I "message_type"]; Pu Semi].
Definition coding_of (p : string) : list tree := [I (p ++ "_get_msg_coding"); G Par [I "message_type"]].
Definition dec_body (p : string) : list tree :=
  [I "return"; I "osmo_gtlvs_decode";
   G Par ([I "dst"; Pu Comma; I "sizeof"; G Par [Pu Star; I "dst"]; Pu Comma; Nm "0"; Pu Comma; I "gtlv"; Pu Comma; I "tlv_ordered"; Pu Comma] ++ coding_of p
          ++ [Pu Comma; I "err_cb"; Pu Comma; I "err_cb_data"; Pu Comma; I "iei_strs"]); Pu Semi].
Definition enc_body (p : string) : list tree :=
  [I "return"; I "osmo_gtlvs_encode";
   G Par ([I "gtlv"; Pu Comma; I "src"; Pu Comma; I "sizeof"; G Par [Pu Star; I "src"]; Pu Comma; Nm "0"; Pu Comma] ++ coding_of p
          ++ [Pu Comma; I "err_cb"; Pu Comma; I "err_cb_data"; Pu Comma; I "iei_strs"]); Pu Semi].
Definition str_body (p : string) : list tree :=
  [I "return"; I "osmo_gtlvs_encode_to_str_buf";
   G Par ([I "buf"; Pu Comma; I "buflen"; Pu Comma; I "src"; Pu Comma; I "sizeof"; G Par [Pu Star; I "src"]; Pu Comma; Nm "0"; Pu Comma] ++ coding_of p
          ++ [Pu Comma; I "iei_strs"]); Pu Semi].
Definition api_protos (p : string) (e : ctype) : list cfun := [get_fun p e None; dec_fun p e None; enc_fun p e None; str_fun p e None].
Definition api_funs (p : string) (e : ctype) : list cfun :=
  [get_fun p e (Some get_body); dec_fun p e (Some (dec_body p)); enc_fun p e (Some (enc_body p)); str_fun p e (Some (str_body p))].

Definition short_words (e : ctype) : Prop := exists a, identifier a /\ (e = [a] \/ exists b, identifier b /\ e = [a; b]).
Lemma enum_words tc ce ms : printable tc ce ms -> exists e, short_words e /\ enum_type tc = L (String.concat " " e).
Proof.
  intros HP. unfold enum_type. destruct (tc_enum tc) as [t|] eqn:E; cbn [orelse].
  - destruct (p_enum tc ce ms HP t E) as [H|(a & b & Ha & Hb & ->)]; [exists [t]|exists [a; b]]; (split; [|reflexivity]).
    + exists t. split; [exact H|left; reflexivity].
    + exists a. split; [exact Ha|right; exists b; split; [exact Hb|reflexivity]].
  - exists ["int"]. split; [|reflexivity]. exists "int". split; [split; [repeat constructor|reflexivity]|left; reflexivity].
Qed.
Lemma t_ok ws : ws <> [] -> Forall identifier ws -> piece_ok (T ws).
Proof. intros A B. split; assumption. Qed.
Ltac pieces2 := repeat first [apply Forall_nil | apply Forall_cons; [first [apply v_id; assumption | apply t_ok; [discriminate|repeat (apply Forall_cons; [assumption|]); apply Forall_nil]]|]].
Ltac by_reading a := eapply (rd_pf read_item _ a); [pieces2|vm_compute; reflexivity|vm_compute; reflexivity|vm_compute; reflexivity|vm_compute; reflexivity].

Section Api.
Variable p : string.
Variable e : ctype.
Hypothesis Hp : identifier p.
Hypothesis He : short_words e.
Local Notation et := (L (String.concat " " e)).
Lemma rd_get_proto : rd read_item (printf "\nconst struct osmo_gtlv_coding *%s_get_msg_coding(%s message_type);\n" [L p; et]) [IFun (get_fun p e None)].
Proof. destruct He as (a & Ha & [->|(b & Hb & ->)]); [by_reading [V true p; T [a]]|by_reading [V true p; T [a; b]]]. Qed.
Lemma rd_dec_proto : rd read_item (printf "\nint %s_ies_decode(union %s_ies *dst, struct osmo_gtlv_load *gtlv, bool tlv_ordered,\n\t%s message_type, osmo_gtlv_err_cb err_cb, void *err_cb_data, const struct value_string *iei_strs);\n"
  [L p; L p; et]) [IFun (dec_fun p e None)].
Proof. destruct He as (a & Ha & [->|(b & Hb & ->)]); [by_reading [V true p; V true p; T [a]]|by_reading [V true p; V true p; T [a; b]]]. Qed.
Lemma rd_enc_proto : rd read_item (printf "\nint %s_ies_encode(struct osmo_gtlv_put *gtlv, const union %s_ies *src,\n\t%s message_type, osmo_gtlv_err_cb err_cb, void *err_cb_data, const struct value_string *iei_strs);\n"
  [L p; L p; et]) [IFun (enc_fun p e None)].
Proof. destruct He as (a & Ha & [->|(b & Hb & ->)]); [by_reading [V true p; V true p; T [a]]|by_reading [V true p; V true p; T [a; b]]]. Qed.
Lemma rd_str_proto : rd read_item (printf "\nint %s_ies_encode_to_str(char *buf, size_t buflen, const union %s_ies *src,\n\t%s message_type, const struct value_string *iei_strs);\n"
  [L p; L p; et]) [IFun (str_fun p e None)].
Proof. destruct He as (a & Ha & [->|(b & Hb & ->)]); [by_reading [V true p; V true p; T [a]]|by_reading [V true p; V true p; T [a; b]]]. Qed.
Lemma rd_get_fun : rd read_item (printf "\nconst struct osmo_gtlv_coding *%s_get_msg_coding(%s message_type)\n{\n\tif (message_type >= ARRAY_SIZE(msg_defs))\n\t\treturn NULL;\n\treturn msg_defs[message_type];\n}\n"
  [L p; et]) [IFun (get_fun p e (Some get_body))].
Proof. destruct He as (a & Ha & [->|(b & Hb & ->)]); [by_reading [V true p; T [a]]|by_reading [V true p; T [a; b]]]. Qed.
Lemma rd_dec_fun : rd read_item (printf "\nint %s_ies_decode(union %s_ies *dst, struct osmo_gtlv_load *gtlv, bool tlv_ordered,\n\t%s message_type,\n\tosmo_gtlv_err_cb err_cb, void *err_cb_data, const struct value_string *iei_strs)\n{\n\treturn osmo_gtlvs_decode(dst, sizeof(*dst), 0, gtlv, tlv_ordered, %s_get_msg_coding(message_type),\n\t\terr_cb, err_cb_data, iei_strs);\n}\n"
  [L p; L p; et; L p]) [IFun (dec_fun p e (Some (dec_body p)))].
Proof. destruct He as (a & Ha & [->|(b & Hb & ->)]); [by_reading [V true p; V true p; T [a]; V true p]|by_reading [V true p; V true p; T [a; b]; V true p]]. Qed.
Lemma rd_enc_fun : rd read_item (printf "\nint %s_ies_encode(struct osmo_gtlv_put *gtlv, const union %s_ies *src,\n\t%s message_type, osmo_gtlv_err_cb err_cb, void *err_cb_data, const struct value_string *iei_strs)\n{\n\treturn osmo_gtlvs_encode(gtlv, src, sizeof(*src), 0, %s_get_msg_coding(message_type),\n\t\terr_cb, err_cb_data, iei_strs);\n}\n"
  [L p; L p; et; L p]) [IFun (enc_fun p e (Some (enc_body p)))].
Proof. destruct He as (a & Ha & [->|(b & Hb & ->)]); [by_reading [V true p; V true p; T [a]; V true p]|by_reading [V true p; V true p; T [a; b]; V true p]]. Qed.
Lemma rd_str_fun : rd read_item (printf "\nint %s_ies_encode_to_str(char *buf, size_t buflen, const union %s_ies *src,\n\t%s message_type, const struct value_string *iei_strs)\n{\n\treturn osmo_gtlvs_encode_to_str_buf(buf, buflen, src, sizeof(*src), 0, %s_get_msg_coding(message_type), iei_strs);\n}\n"
  [L p; L p; et; L p]) [IFun (str_fun p e (Some (str_body p)))].
Proof. destruct He as (a & Ha & [->|(b & Hb & ->)]); [by_reading [V true p; V true p; T [a]; V true p]|by_reading [V true p; V true p; T [a; b]; V true p]]. Qed.
End Api.

(* ---------------------------------------------------------------- write_h() *)
Definition oks {A B} (R : A -> B -> Prop) (a : option A) (b : option B) : Prop :=
  match a, b with Some x, Some y => R x y | None, None => True | _, _ => False end.
Lemma all_occs (ms : list gmsg) m i j : In m ms -> In i (snd m) -> In j (occs i) -> In j (all_ies ms).
Proof. intros A B C. apply in_flat_map. exists m. split; [exact A|]. apply in_flat_map. exists i. split; assumption. Qed.
Lemma lx_line f : plex PN (ppf (L f) []) = Some [] -> lx (printf f []) [].
Proof. exact (lx_pf f [] [] (Forall_nil _)). Qed.
Lemma header_read tc ce ms e : printable tc ce ms -> short_words e -> enum_type tc = L (String.concat " " e) ->
  oks (fun th hs => exists its, read_file th = Some (its ++ map IFun (api_protos (gc_proto (tc_gen tc)) e)) /\ Forall2 hi hs its) (text_h tc ms) (gen_h (tc_gen tc) ms).
Proof.
  intros HP He Ee. unfold text_h, gen_h. pose proof (p_proto tc ce ms HP) as Hp.
  pose proof (walk_msgs_same rdh rdh_nil rdh_app (t_auto_structs tc) (auto_structs (tc_gen tc)) ms
    (fun m Hm i Hi => structs_same tc ce ms HP i (fun j Hj => all_occs ms m i j Hm Hi Hj)) []) as W.
  destruct (walk_msgs (t_auto_structs tc) ms []) as [[t s]|], (walk_msgs (auto_structs (tc_gen tc)) ms []) as [[x s2]|]; try exact W; try (destruct W; fail).
  destruct W as [_ (i1 & R1 & F1)]. destruct (union_same tc ce ms HP) as (i2 & R2 & F2). cbn [obind fst oks]. rewrite Ee. exists (i1 ++ i2). split; [|exact (Forall2_app F1 F2)].
  apply rd_read. rewrite <- app_assoc.
  apply (rd_app _ _ _ [] _). { apply rd_blank. exact (lx_file _ (p_file tc ce ms HP)). }
  apply (rd_app _ _ _ [] _). { apply rd_blank. apply lx_run. reflexivity. }
  apply (rd_app _ _ _ [] _). { apply rd_blank. apply lx_run. reflexivity. }
  apply (rd_app _ _ _ [] _). { destruct (tc_hhdr tc) as [h|] eqn:E; [|exact (rd_nil _)]. apply rd_blank. exact (lx_hdr h (p_hhdr tc ce ms HP h E)). }
  apply rd_app; [exact R1|]. apply rd_app; [exact R2|].
  apply (rd_app _ _ _ [_] _ (rd_get_proto _ e Hp He)). apply (rd_app _ _ _ [_] _ (rd_dec_proto _ e Hp He)).
  apply (rd_app _ _ _ [_] _ (rd_enc_proto _ e Hp He)). exact (rd_str_proto _ e Hp He).
Qed.
