(* CRead.v -- reading C source text: the subset of C in which generated files are written, from characters to declarations and their
   meaning. Independent of the generator. Simplifications: a line that starts a preprocessor directive is skipped to its end (included
   files are given as types and constants); a word that is a reserved word in C is accepted as a name; bodies of functions are read
   when they are called. Layout of structs, offsetof() and duplicate members: the C compiler of GenModel.v. *)
From Coq Require Import String Ascii Decimal DecimalString.
From Verif Require Import Base GtlvModel DecEncModel MemModel GenModel.
Local Open Scope list_scope.

(* ---------------------------------------------------------------- characters -> tokens *)
Definition text : Type := list ascii.
Inductive punct := Semi | Comma | Star | Assign | Dot | Ge.
Inductive brk := Par | Brk | Brc.
Inductive tok := TId (s : string) | TNum (s : string) | TP (p : punct) | TO (b : brk) | TC (b : brk).

Definition code (c : ascii) : N := N_of_ascii c.
Definition digit (c : ascii) : bool := (N.leb 48 (code c) && N.leb (code c) 57)%bool.
Definition wordc (c : ascii) : bool :=
  (digit c || (N.leb 65 (code c) && N.leb (code c) 90) || (N.leb 97 (code c) && N.leb (code c) 122) || N.eqb (code c) 95)%bool.
Definition space (c : ascii) : bool := existsb (N.eqb (code c)) [9; 10; 32]%N.
(* ; , * = . and brackets *)
Definition single (c : ascii) : option tok :=
  option_map snd (find (fun p => N.eqb (fst p) (code c))
    [(59, TP Semi); (44, TP Comma); (42, TP Star); (61, TP Assign); (46, TP Dot);
     (40, TO Par); (41, TC Par); (91, TO Brk); (93, TC Brk); (123, TO Brc); (125, TC Brc)]%N).

(* between tokens, in a word, after a slash, in a comment, in a comment after a star, in a directive, after ">", not C *)
Inductive lmode := LNone | LWord (w : text) | LSlash | LCom | LStar | LLine | LGt | LBad.
(* a word that starts with a digit is a number *)
Definition word_tok (w : text) : tok :=
  match w with c :: _ => if digit c then TNum (string_of_list_ascii w) else TId (string_of_list_ascii w) | [] => TId EmptyString end.
Definition lstart (c : ascii) (t : list tok) : lmode * list tok :=
  if wordc c then (LWord [c], t)
  else if space c then (LNone, t)
  else if N.eqb (code c) 47 then (LSlash, t)
  else if N.eqb (code c) 35 then (LLine, t)
  else if N.eqb (code c) 62 then (LGt, t)
  else match single c with Some k => (LNone, k :: t) | None => (LBad, t) end.
Definition lstep (st : lmode * list tok) (c : ascii) : lmode * list tok :=
  let t := snd st in
  match fst st with
  | LNone => lstart c t
  | LWord w => if wordc c then (LWord (w ++ [c]), t) else lstart c (word_tok w :: t)
  | LSlash => if N.eqb (code c) 42 then (LCom, t) else (LBad, t)
  | LCom => if N.eqb (code c) 42 then (LStar, t) else (LCom, t)
  | LStar => if N.eqb (code c) 47 then (LNone, t) else if N.eqb (code c) 42 then (LStar, t) else (LCom, t)
  | LLine => if N.eqb (code c) 10 then (LNone, t) else (LLine, t)
  | LGt => if N.eqb (code c) 61 then (LNone, TP Ge :: t) else (LBad, t)
  | LBad => (LBad, t)
  end.
Fixpoint lrun (st : lmode * list tok) (s : text) : lmode * list tok := match s with [] => st | c :: s' => lrun (lstep st c) s' end.
Definition lex (s : text) : option (list tok) := match lrun (LNone, []) s with (LNone, t) => Some (rev t) | _ => None end.

(* ---------------------------------------------------------------- tokens -> brackets *)
Inductive tree := I (s : string) | Nm (s : string) | Pu (p : punct) | G (b : brk) (l : list tree).
Definition brk_eqb (a b : brk) : bool := match a, b with Par, Par | Brk, Brk | Brc, Brc => true | _, _ => false end.
(* what has been read in the innermost open bracket and before it in those around it, last first *)
Definition tstate : Type := list tree * list (brk * list tree).
Definition tstep (st : tstate) (k : tok) : option tstate :=
  let '(cur, stk) := st in
  match k with
  | TId s => Some (I s :: cur, stk)
  | TNum s => Some (Nm s :: cur, stk)
  | TP p => Some (Pu p :: cur, stk)
  | TO b => Some ([], (b, cur) :: stk)
  | TC b => match stk with (b', up) :: stk' => if brk_eqb b b' then Some (G b (rev cur) :: up, stk') else None | [] => None end
  end.
Fixpoint trun (st : tstate) (l : list tok) : option tstate := match l with [] => Some st | k :: l' => st' <-? tstep st k ;; trun st' l' end.
Definition trees (l : list tok) : option (list tree) := match trun ([], []) l with Some (cur, []) => Some (rev cur) | _ => None end.

(* ---------------------------------------------------------------- brackets -> declarations *)
Fixpoint omap {A B} (f : A -> option B) (l : list A) : option (list B) :=
  match l with [] => Some [] | x :: l' => y <-? f x ;; ys <-? omap f l' ;; Some (y :: ys) end.
(* Declarations or statements, each ended by ";"; a function definition ends after its body, which is in braces after the parameters. *)
Fixpoint split_semi (l cur : list tree) : option (list (list tree)) :=
  match l with
  | [] => match cur with [] => Some [] | _ => None end
  | x :: l' =>
    match x, cur with
    | Pu Semi, _ => r <-? split_semi l' [] ;; Some (rev cur :: r)
    | G Brc _, G Par _ :: _ => r <-? split_semi l' [] ;; Some (rev (x :: cur) :: r)
    | _, _ => split_semi l' (x :: cur)
    end
  end.
(* a list separated by ","; a "," at the end is allowed *)
Fixpoint split_comma (l cur : list tree) : option (list (list tree)) :=
  match l with
  | [] => match cur with [] => Some [] | _ => Some [rev cur] end
  | Pu Comma :: l' => match cur with [] => None | _ => r <-? split_comma l' [] ;; Some (rev cur :: r) end
  | x :: l' => split_comma l' (x :: cur)
  end.
(* ... and where it is not *)
Definition args (l : list tree) : option (list (list tree)) := match rev l with Pu Comma :: _ => None | _ => split_comma l [] end.

(* a type and a name: "const struct foo *bar"; a type is a list of words and stars *)
Definition ctype : Type := list string.
Definition type_word (t : tree) : option string := match t with I s => Some s | Pu Star => Some "*"%string | _ => None end.
Definition decl (l : list tree) : option (ctype * string) :=
  match rev l with I n :: ((_ :: _) as r) => ty <-? omap type_word (rev r) ;; Some (ty, n) | _ => None end.
Definition type_str (t : ctype) : string := String.concat " " t.
(* decimal constants; a leading 0 would make it octal *)
Definition number (s : string) : option N :=
  d <-? NilEmpty.uint_of_string s ;;
  match d with Decimal.Nil => None | Decimal.D0 (Decimal.Nil) => Some 0%N | Decimal.D0 _ => None | _ => Some (N.of_uint d) end.
Definition read_member (l : list tree) : option member :=
  match rev l with
  | G Brk [Nm n] :: r => d <-? decl (rev r) ;; k <-? number n ;; Some (mkMemb (type_str (fst d)) (snd d) (Some k))
  | _ => d <-? decl l ;; Some (mkMemb (type_str (fst d)) (snd d) None)
  end.
Record cfun := mkFun { fu_ret : ctype; fu_name : string; fu_params : list (ctype * string); fu_body : option (list tree) }.
Inductive item :=
| IStruct (ms : list member) (n : string) | IUnion (ms : list member) (n : string)
| IFun (f : cfun)
| IArray (ty : ctype) (n : string) (elems : list (list tree)).     (* "ty n[] = { elems }" *)
Definition read_fun (r ps : list tree) (body : option (list tree)) : option item :=
  d <-? decl r ;; ps' <-? args ps ;; ds <-? omap decl ps' ;; Some (IFun (mkFun (fst d) (snd d) ds body)).
Definition no_extern (l : list tree) : list tree :=
  match l with I e :: l' => if String.eqb e "extern" then l' else l | _ => l end.
Definition read_item (l : list tree) : option item :=
  match rev l with
  | G Par ps :: r => read_fun (no_extern (rev r)) ps None
  | G Brc b :: G Par ps :: r => read_fun (rev r) ps (Some b)
  | G Brc b :: Pu Assign :: G Brk [] :: r => d <-? decl (rev r) ;; es <-? split_comma b [] ;; Some (IArray (fst d) (snd d) es)
  | [G Brc b; I n; I k] =>
    ml <-? split_semi b [] ;; ms <-? omap read_member ml ;;
    if String.eqb k "struct" then Some (IStruct ms n) else if String.eqb k "union" then Some (IUnion ms n) else None
  | _ => None
  end.
Definition read_file (s : text) : option (list item) :=
  t <-? lex s ;; tr <-? trees t ;; l <-? split_semi tr [] ;; omap read_item l.

(* ---------------------------------------------------------------- declarations -> meaning *)
(* the type of a function: result and parameters *)
Definition ftype : Type := ctype * list ctype.
Definition fun_type (f : cfun) : ftype := (fu_ret f, map fst (fu_params f)).
Definition ctype_eqb (a b : ctype) : bool := if list_eq_dec String.string_dec a b then true else false.
Fixpoint ctypes_eqb (a b : list ctype) : bool :=
  match a, b with [], [] => true | x :: a', y :: b' => (ctype_eqb x y && ctypes_eqb a' b')%bool | _, _ => false end.
Definition ftype_eqb (a b : ftype) : bool := (ctype_eqb (fst a) (fst b) && ctypes_eqb (snd a) (snd b))%bool.
(* names of functions and arrays; None: an array *)
Definition names : Type := list (string * option ftype).
Definition declare (ns : names) (f : cfun) : option names :=
  match get (fu_name f) ns with
  | None => Some ((fu_name f, Some (fun_type f)) :: ns)
  | Some (Some t) => if ftype_eqb t (fun_type f) then Some ns else None
  | Some None => None
  end.

(* the header: types and functions *)
Fixpoint c_header (te : tenv) (ns : names) (l : list item) : option (tenv * names) :=
  match l with
  | [] => Some (te, ns)
  | IStruct ms n :: l' => te' <-? cc_hitem te (HStruct ("struct " ++ n) ms) ;; c_header te' ns l'
  | IUnion ms n :: l' => te' <-? cc_hitem te (HUnion ("union " ++ n) ms) ;; c_header te' ns l'
  | IFun (mkFun r n ps None) :: l' => ns' <-? declare ns (mkFun r n ps None) ;; c_header te ns' l'
  | _ => None
  end.

Section Compile.
Variable te : tenv.
Variable ce : string -> option N.

(* offsetof(T, m) and offsetof(T, s.m) *)
Definition designated (l : list tree) : option (N * finfo) :=
  a <-? args l ;;
  match a with
  | [t; m] =>
    ws <-? omap type_word t ;;
    match m with
    | [I x] => offset_of te (type_str ws) None x
    | [I s; Pu Dot; I x] => offset_of te (type_str ws) (Some s) x
    | _ => None
    end
  | _ => None
  end.
Definition const_expr (e : list tree) : option N :=
  match e with
  | [Nm s] => number s
  | [I s] => if String.eqb s "true" then Some 1%N else ce s
  | [I f; G Par a] =>
    if String.eqb f "offsetof" then o <-? designated a ;; Some (fst o)
    (* gtlv_dec_enc.h:68-72: the size of an element of an array *)
    else if String.eqb f "OSMO_MEMB_ARRAY_PITCH" then o <-? designated a ;; (if fi_n (snd o) then Some (fi_elem (snd o)) else None)
    else None
  | _ => None
  end.
(* ".name = value" *)
Definition read_field (l : list tree) : option (string * list tree) :=
  match l with Pu Dot :: I f :: Pu Assign :: e => Some (f, e) | _ => None end.
Definition coding_fields : list string :=
  ["memb_ofs"; "nested_ies"; "dec_func"; "enc_func"; "enc_to_str_func"; "memb_array_pitch"; "has_count"; "count_max"; "count_mandatory";
   "count_ofs"; "has_presence_flag"; "presence_flag_ofs"]%string.
Fixpoint nodupb (l : list string) : bool := match l with [] => true | x :: l' => (negb (existsb (String.eqb x) l') && nodupb l')%bool end.
(* members that are not given are 0 *)
Definition field_num (fs : list (string * list tree)) (f : string) : option N :=
  match get f fs with Some e => const_expr e | None => Some 0%N end.

(* the types of the dec_func, enc_func and enc_to_str_func members, gtlv_dec_enc.h:44-62 *)
Definition dec_type : ftype := (["int"], [["void"; "*"]; ["void"; "*"]; ["const"; "struct"; "osmo_gtlv_load"; "*"]])%string.
Definition enc_type : ftype := (["int"], [["struct"; "osmo_gtlv_put"; "*"]; ["const"; "void"; "*"]; ["const"; "void"; "*"]])%string.
Definition str_type : ftype := (["int"], [["char"; "*"]; ["size_t"]; ["const"; "void"; "*"]])%string.
Definition fun_ref (ns : names) (t : ftype) (e : list tree) : option string :=
  match e with
  | [I f] => match get f ns with Some (Some t') => if ftype_eqb t' t then Some f else None | _ => None end
  | _ => None
  end.

(* struct osmo_gtlv_tag_inst: { tag } or { tag, instance_present, instance } *)
Definition read_ti (l : list tree) : option tag_inst :=
  es <-? split_comma l [] ;; vs <-? omap const_expr es ;;
  match vs with
  | [t] => Some (mkTi t false 0)
  | [t; p; i] => Some (mkTi t (negb (N.eqb p 0)) i)
  | _ => None
  end.
(* a struct osmo_gtlv_coding, gtlv_dec_enc.h:80-173 *)
Definition read_coding (ns : names) (tb : tables) (l : list tree) : option (mcoding fns) :=
  es <-? split_comma l [] ;;
  match es with
  | [G Brc t] :: fl =>
    ti <-? read_ti t ;;
    fs <-? omap read_field fl ;;
    if (nodupb (map fst fs) && forallb (fun f => existsb (String.eqb (fst f)) coding_fields) fs)%bool then
      ofs <-? field_num fs "memb_ofs" ;; pitch <-? field_num fs "memb_array_pitch" ;;
      hc <-? field_num fs "has_count" ;; cmax <-? field_num fs "count_max" ;; cmand <-? field_num fs "count_mandatory" ;; cofs <-? field_num fs "count_ofs" ;;
      hp <-? field_num fs "has_presence_flag" ;; pofs <-? field_num fs "presence_flag_ofs" ;;
      let h := mkMHead (mkHead ti (negb (N.eqb hp 0)) (if N.eqb hc 0 then None else Some (cmax, cmand))) ofs pitch pofs cofs in
      match get "nested_ies" fs, get "dec_func" fs, get "enc_func" fs, get "enc_to_str_func" fs with
      | Some [I n], None, None, None =>
        ies <-? get n tb ;;
        (* the group is decoded into the member that memb_ofs refers to *)
        match get "memb_ofs" fs with
        | Some [I _; G Par a] => o <-? designated a ;; Some (MNest h (fi_elem (snd o)) None OrdSame ies)
        | _ => None
        end
      | None, Some d, Some e, so =>
        fd <-? fun_ref ns dec_type d ;; fe <-? fun_ref ns enc_type e ;;
        fs <-? match so with None => Some None | Some s => x <-? fun_ref ns str_type s ;; Some (Some x) end ;;
        Some (MLeaf h (mkFns fd fe fs))
      | _, _, _, _ => None
      end
    else None
  | _ => None
  end.
(* a table: up to the first empty entry *)
Fixpoint read_codings (ns : names) (tb : tables) (es : list (list tree)) : option (list (mcoding fns)) :=
  match es with
  | [] => None
  | [G Brc []] :: _ => Some []
  | [G Brc l] :: es' => d <-? read_coding ns tb l ;; ds <-? read_codings ns tb es' ;; Some (d :: ds)
  | _ :: _ => None
  end.
(* "[index] = table" *)
Definition read_index (e : list tree) : option (string * string) :=
  match e with [G Brk [I x]; Pu Assign; I t] => Some (x, t) | _ => None end.
Definition table_type : ctype := ["static"; "const"; "struct"; "osmo_gtlv_coding"]%string.

(* the C file: tables, msg_defs and the definitions of functions, last first *)
Record unit_ := mkUnit { un_names : names; un_tables : tables; un_defs : option (list (N * list (mcoding fns))); un_funs : list cfun }.
Definition c_item (u : unit_) (i : item) : option unit_ :=
  match i with
  | IFun f =>
    ns <-? declare (un_names u) f ;;
    match fu_body f with
    | None => Some (mkUnit ns (un_tables u) (un_defs u) (un_funs u))
    | Some _ => if existsb (fun g => String.eqb (fu_name g) (fu_name f)) (un_funs u) then None
                else Some (mkUnit ns (un_tables u) (un_defs u) (f :: un_funs u))
    end
  | IArray ty n es =>
    if has n (un_names u) then None
    else if ctype_eqb ty table_type then
      ds <-? read_codings (un_names u) (un_tables u) es ;;
      Some (mkUnit ((n, None) :: un_names u) ((n, ds) :: un_tables u) (un_defs u) (un_funs u))
    else if (ctype_eqb ty (table_type ++ ["*"%string]) && String.eqb n "msg_defs")%bool then
      l <-? omap read_index es ;; ds <-? cc_defs ce (un_tables u) l ;;
      Some (mkUnit ((n, None) :: un_names u) (un_tables u) (Some ds) (un_funs u))
    else None
  | _ => None
  end.
Fixpoint c_items (u : unit_) (l : list item) : option unit_ := match l with [] => Some u | i :: l' => u' <-? c_item u i ;; c_items u' l' end.
End Compile.

Record program := mkProg { pr_types : tenv; pr_defs : list (N * list (mcoding fns)); pr_funs : list cfun }.
(* The C file includes the header. *)
Definition compile_files (te0 : tenv) (ce : string -> option N) (h c : text) : option program :=
  hs <-? read_file h ;; cs <-? read_file c ;;
  tn <-? c_header te0 [] hs ;;
  u <-? c_items (fst tn) ce (mkUnit (snd tn) [] None []) cs ;;
  defs <-? un_defs u ;;
  Some (mkProg (fst tn) defs (un_funs u)).

(* ---------------------------------------------------------------- calling functions *)
(* VPtr: some pointer; VCall: the result of a call of a function that is defined elsewhere *)
Inductive value := VNum (n : N) | VNull | VTab (t : list (mcoding fns)) | VPtr (n : N) | VCall (f : string) (vs : list value).
Section Run.
Variable p : program.
Definition env : Type := list (string * (ctype * value)).
(* "sizeof( *x )": the size of what x points to *)
Definition pointee (t : ctype) : option ctype :=
  match rev t with s :: r => if String.eqb s "*" then Some (match rev r with c :: q => if String.eqb c "const" then q else c :: q | [] => [] end) else None | [] => None end.
Section Expr.
Variable call : string -> list value -> option value.
Fixpoint expr (fuel : nat) (en : env) (e : list tree) : option value :=
  match fuel with
  | O => None
  | S n =>
    match e with
    | [Nm s] => v <-? number s ;; Some (VNum v)
    | [I x] => if String.eqb x "NULL" then Some VNull else option_map snd (get x en)
    | [I a; G Brk i] =>
      if String.eqb a "msg_defs" then
        match expr n en i with
        | Some (VNum k) => if N.leb (defs_size (pr_defs p)) k then None
                           else Some (match option_map snd (find (fun d => N.eqb (fst d) k) (rev (pr_defs p))) with Some t => VTab t | None => VNull end)
        | _ => None
        end
      else None
    | [I f; G Par [Pu Star; I x]] =>
      if String.eqb f "sizeof" then
        b <-? get x en ;; t <-? pointee (fst b) ;; ty <-? pr_types p (type_str t) ;; Some (VNum (ty_size ty))
      else None
    | [I f; G Par a] =>
      if String.eqb f "ARRAY_SIZE" then
        match a with [I x] => if String.eqb x "msg_defs" then Some (VNum (defs_size (pr_defs p))) else None | _ => None end
      else al <-? args a ;; vs <-? omap (expr n en) al ;; call f vs
    | I x :: Pu Ge :: r =>
      match option_map snd (get x en), expr n en r with
      | Some (VNum a), Some (VNum b) => Some (VNum (if N.leb b a then 1 else 0))
      | _, _ => None
      end
    | _ => None
    end
  end.
(* "if (c) return e;" and "return e;" *)
Fixpoint run (en : env) (l : list (list tree)) : option value :=
  match l with
  | (I k :: e) :: l' =>
    if String.eqb k "return" then expr 5 en e
    else if String.eqb k "if" then
      match e with
      | G Par c :: I r :: e' =>
        if String.eqb r "return" then
          match expr 5 en c with
          | Some (VNum b) => if N.eqb b 0 then run en l' else expr 5 en e'
          | _ => None
          end
        else None
      | _ => None
      end
    else None
  | _ => None
  end.
End Expr.
Fixpoint bind_args (ps : list (ctype * string)) (vs : list value) : option env :=
  match ps, vs with
  | [], [] => Some []
  | (t, x) :: ps', v :: vs' => r <-? bind_args ps' vs' ;; Some ((x, (t, v)) :: r)
  | _, _ => None
  end.
(* functions that the files do not define: VCall *)
Fixpoint call (fuel : nat) (f : string) (vs : list value) : option value :=
  match find (fun g => String.eqb (fu_name g) f) (pr_funs p) with
  | None => Some (VCall f vs)
  | Some g =>
    match fuel, fu_body g with
    | S n, Some b => en <-? bind_args (fu_params g) vs ;; l <-? split_semi b [] ;; run (call n) en l
    | _, _ => None
    end
  end.
Definition call_function : string -> list value -> option value := call 5.
End Run.
