(** What the parser does on a phrase: definitions and the lemmas on operators and declarators. *)
From Verif Require Import Base LiteralModel LexerModel AstModel ParserModel ParserProofs TypeProofs Grammar GrammarProofs GrammarProofs2.
Open Scope nat_scope.

(** how tightly a token continues the expression before it *)
Definition power (t : ctype) : nat :=
  match t with
  | LBracket | LParen | Dot | Arrow | PlusPlus | MinusMinus => 13
  | Asterisk | Slash | Percent => 12
  | Plus | Minus => 11
  | LessLess | GreaterGreater => 10
  | Less | Greater | LessEqual | GreaterEqual => 9
  | EqualEqual | ExclamEqual => 8
  | And => 7 | Caret => 6 | VBar => 5 | AndAnd => 4 | VBarVBar => 3
  | Question => 2
  | Equal | AsteriskEqual | SlashEqual | PercentEqual | PlusEqual | MinusEqual
  | LessLessEqual | GreaterGreaterEqual | AndEqual | CaretEqual | VBarEqual => 1
  | _ => 0
  end.
Definition lev (l : level) : nat :=
  match l with LLor => 1 | LLand => 2 | LOr => 3 | LXor => 4 | LAnd => 5 | LEq => 6 | LRel => 7 | LShift => 8 | LAdd => 9 | LMul => 10 end.
Definition stops (k : nat) (ts : list token) : Prop := match ts with [] => False | t :: _ => power (ttype t) < k end.
Definition no_assign (ts : list token) : Prop := match ts with [] => False | t :: _ => assign_op (ttype t) = None end.

Lemma stops_le j k ts : j <= k -> stops j ts -> stops k ts.
Proof. destruct ts; cbn; [auto|lia]. Qed.
Lemma level_op_none l t : power t <> lev l + 2 -> level_op l t = None.
Proof. destruct l, t; cbn; intros H; try reflexivity; lia. Qed.
Lemma level_op_some l k t ty : In (k, t, ty) binary_operators -> lev l = k -> level_op l t = Some ty /\ power t = k + 2.
Proof. intros H E. op_cases; destruct l; cbn in *; try discriminate; split; reflexivity. Qed.
Lemma assign_op_none t : power t <> 1 -> assign_op t = None.
Proof. destruct t; cbn; intros H; try reflexivity; lia. Qed.
Lemma assign_op_some t ty : In (t, ty) assignment_operators -> assign_op t = Some ty /\ power t = 1.
Proof. intros H. op_cases; split; reflexivity. Qed.
Lemma postfix_stop S fl a rest : stops 13 rest -> run (NPostfixTail a) rest S fl (Some a, mkpst rest S fl).
Proof.
  intros H. destruct rest as [|t r]; [destruct H|]. evs. unfold parse_postfix_tail. toks. cbn [stops] in H.
  destruct (ttype t); cbn in H; try lia; apply ev_pok.
Qed.
Lemma tail_stop S fl l a rest : stops (lev l + 2) rest -> run (NTail l a) rest S fl (Some a, mkpst rest S fl).
Proof.
  intros H. destruct rest as [|t r]; [destruct H|]. evs. unfold parse_tail. toks. cbn [stops] in H.
  rewrite level_op_none by lia. apply ev_pok.
Qed.

(** trying a unary expression before an assignment operator does no harm *)
Definition guess (ts : list token) (S : list name) (fl : bool) : Prop :=
  exists o st, run NUnary ts S fl (o, st) /\ tdnames st = S /\ tdflag st = fl /\ (o = None \/ no_assign (ParserModel.toks st)).

(* ------------------------------------------------------------- declarators *)
Definition linkish (a : ast) : Prop := match a with Ast (AST_PTR_DECLOR | AST_ARRAY_DECLOR | AST_FUNC_DECLOR) PNone _ => True | _ => False end.
Definition termish (abs : bool) (x : ast) : Prop := if abs then x = node AST_ABS_DECLOR [] else exists n, x = named AST_IDENT_DECLOR n.
Lemma G_links N S ts l S' : G N S ts l S' ->
  match N with
  | Declor abs _ | Direct abs _ => exists x k, l = x :: k /\ termish abs x /\ Forall linkish k
  | Suffixes => Forall linkish l
  | _ => True
  end.
Proof.
  induction 1; try exact Logic.I; try (destruct abs; exact Logic.I); auto.
  - destruct IHG as (x' & k' & E & T & F). injection E as <- <-. do 2 eexists. split; [reflexivity|]. split; [exact T|].
    apply Forall_app. split; [exact F|]. apply Forall_forall. intros y Y. apply repeat_spec in Y. subst. exact Logic.I.
  - do 2 eexists. split; [reflexivity|]. split; [cbn; eauto|exact IHG].
  - do 2 eexists. split; [reflexivity|]. split; [reflexivity|exact IHG].
  - destruct IHG1 as (x' & k'' & E & T & F). injection E as <- <-. do 2 eexists. split; [reflexivity|]. split; [exact T|].
    apply Forall_app. auto.
Qed.
Lemma tree_app x k k' : declarator_tree x (k ++ k') = declarator_tree (declarator_tree x k') k.
Proof. induction k as [|[t p c] k IH]; cbn; [reflexivity|]. now rewrite IH. Qed.
Lemma chain_tree k x : chain k x = declarator_tree x k.
Proof. induction k as [|[t p c] k IH]; [reflexivity|]. cbn. now rewrite <- IH. Qed.
Lemma asttype_eqb_refl t : asttype_eqb t t = true.
Proof. unfold asttype_eqb. apply Z.eqb_refl. Qed.
Lemma termish_type abs x : termish abs x -> ast_type x = terminal_type abs.
Proof. destruct abs; cbn; [intros ->|intros [n ->]]; reflexivity. Qed.
Lemma linkish_type abs a : linkish a -> asttype_eqb (ast_type a) (terminal_type abs) = false.
Proof. destruct a as [t p c], abs; cbn; intros H; destruct t; try destruct H; reflexivity. Qed.
Lemma tree_type x t p c k : ast_type (declarator_tree x (Ast t p c :: k)) = t.
Proof. reflexivity. Qed.
Lemma tree_not_terminal abs x k : Forall linkish k -> k <> [] -> asttype_eqb (ast_type (declarator_tree x k)) (terminal_type abs) = false.
Proof. intros F N. destruct F as [|[t p c] k L F]; [congruence|]. exact (linkish_type abs _ L). Qed.
Lemma tree_replace abs x k f : termish abs x -> Forall linkish k -> k <> [] ->
  replace_terminal (terminal_type abs) f (declarator_tree x k) = Ok (declarator_tree (f x) k).
Proof.
  intros T F N. induction F as [|[t p c] k L F IH]; [congruence|]. cbn. destruct k as [|m k].
  - cbn. rewrite (termish_type abs x T), asttype_eqb_refl. reflexivity.
  - rewrite (tree_not_terminal abs x (m :: k) F ltac:(discriminate)), IH by discriminate. reflexivity.
Qed.
Lemma tree_find abs x k : termish abs x -> Forall linkish k -> k <> [] ->
  find_terminal (terminal_type abs) (declarator_tree x k) = Ok x.
Proof.
  intros T F N. induction F as [|[t p c] k L F IH]; [congruence|]. cbn. destruct k as [|m k].
  - cbn. rewrite (termish_type abs x T), asttype_eqb_refl. reflexivity.
  - rewrite (tree_not_terminal abs x (m :: k) F ltac:(discriminate)), IH by discriminate. reflexivity.
Qed.
Fixpoint ptrs (n : nat) : ast := match n with O => node AST_PTR_DECLOR [] | S n => node AST_PTR_DECLOR [ptrs n] end.
Lemma pointer_loop_run n m ts : match ts with [] => False | t :: _ => ttype t <> Asterisk end ->
  pointer_loop (repeat (TTok Asterisk) n ++ ts) (ptrs m) = Ok (ptrs (n + m), ts).
Proof.
  intros H. revert m. induction n as [|n IH]; intros m; cbn.
  - destruct ts as [|t r]; [destruct H|]. cbn. rewrite (ctype_eqb_neq _ _ H). reflexivity.
  - rewrite ctype_eqb_refl. change (new_ast AST_PTR_DECLOR [ptrs m]) with (ptrs (S m)). rewrite IH. now rewrite Nat.add_succ_r.
Qed.
Lemma ptrs_attach n x : pointer_attach (ptrs n) x = declarator_tree x (repeat (node AST_PTR_DECLOR []) (S n)).
Proof. induction n as [|n IH]; [reflexivity|]. cbn [ptrs node pointer_attach]. rewrite IH. reflexivity. Qed.

(* --------------------------------------------------------- follow conditions *)
Definition spec_stop (S : list name) (ts : list token) : Prop := match ts with [] => False | t :: _ => ~ begins_specifier S t /\ t <> TTok LBrace end.
Definition declor_stop (ts : list token) : Prop := match ts with TTok (Equal | Comma | Semicolon | RParen | LBrace) :: _ => True | _ => False end.
Definition item_stop (ts : list token) : Prop := match ts with TTok (Comma | Semicolon | RParen) :: _ => True | _ => False end.
Definition else_stop (o : bool) (ts : list token) : Prop := match ts with [] => False | t :: _ => o = true -> ttype t <> KwElse end.
Definition one (l : list ast) : ast := hd (node AST_NULL_STMT []) l.
Definition tree_of (l : list ast) : ast := match l with [] => node AST_NULL_STMT [] | x :: k => declarator_tree x k end.
Definition may (ts : list token) (S : list name) (fl : bool) (b : bool) : Prop :=
  Ev (fun f => may_function_definition (parse f) (mkpst ts S fl)) (Some b).
Definition refused (N : nt) (ts : list token) (S : list name) (fl : bool) : Prop :=
  exists st, run N ts S fl (None, st) /\ tdnames st = S /\ tdflag st = fl.
(** the declarator that the tokens begin with is not the head of a function definition *)
Definition no_body (ts : list token) (S : list name) (fl : bool) : Prop :=
  exists d st t r, run (NDeclor false) ts S fl (Some d, st) /\ ParserModel.toks st = t :: r /\ ttype t <> LBrace.

Definition reads (N : symbol) (S : list name) (ts : list token) (l : list ast) (S' : list name) : Prop :=
  match N with
  | Primary => forall rest fl, run NPrimary (ts ++ rest) S fl (Some (one l), mkpst rest S fl)
  | Postfix => forall rest fl r, run (NPostfixTail (one l)) rest S fl r -> run NPostfix (ts ++ rest) S fl r
  | Unary => forall rest fl, stops 13 rest -> run NUnary (ts ++ rest) S fl (Some (one l), mkpst rest S fl)
  | Cast => forall rest fl, stops 13 rest ->
      (forall stack, run (NCast stack) (ts ++ rest) S fl (Some (pop_stack stack (one l)), mkpst rest S fl)) /\ (no_assign rest -> guess (ts ++ rest) S fl)
  | Bin k => forall rest fl, stops 13 rest ->
      (forall lv r, lev lv = k -> stops (k + 3) rest -> run (NTail lv (one l)) rest S fl r -> run (NLevel lv) (ts ++ rest) S fl r) /\
      (no_assign rest -> guess (ts ++ rest) S fl)
  | Cond => forall rest fl, stops 13 rest ->
      (stops 2 rest -> run NCond (ts ++ rest) S fl (Some (one l), mkpst rest S fl)) /\ (no_assign rest -> guess (ts ++ rest) S fl)
  | Assign => forall rest fl stack, stops 1 rest -> run (NAssign stack) (ts ++ rest) S fl (Some (pop_stack stack (one l)), mkpst rest S fl)
  | Args => forall rest fl, run NArgs (ts ++ TTok RParen :: rest) S fl (Some (node AST_ARG_LIST l), mkpst (TTok RParen :: rest) S fl)
  | ArgList => forall acc rest fl, run (NArgsTail acc) (ts ++ TTok RParen :: rest) S fl (Some (node AST_ARG_LIST (acc ++ l)), mkpst (TTok RParen :: rest) S fl)
  | TypeSpec => forall rest fl, match rest with [] => False | t :: _ => ttype t <> LBrace end -> run NTypeSpec (ts ++ rest) S fl (Some (one l), mkpst rest S fl)
  | SpecQual => forall acc rest fl, spec_stop S rest -> run (NSpecQual acc) (ts ++ rest) S fl (Some (node AST_SPEC_QUAL_LIST (acc ++ l)), mkpst rest S false)
  | DeclSpecs => forall acc b rest fl, spec_stop S rest -> run (NDeclSpecs acc b) (ts ++ rest) S fl (Some (node AST_DECL_SPECS (acc ++ l)), mkpst rest S (b || is_typedef l))
  | TypeName => forall rest fl, run NTypeName (ts ++ TTok RParen :: rest) S fl (Some (one l), mkpst (TTok RParen :: rest) S fl)
  | StructDecls => forall acc rest fl, run (NStructDeclList acc) (ts ++ TTok RBrace :: rest) S fl (Some (node AST_STRUCT_DECL_LIST (acc ++ l)), mkpst (TTok RBrace :: rest) S fl)
  | StructDecl => forall rest fl, rest <> [] -> run NStructDecl (ts ++ rest) S fl (Some (one l), mkpst rest S fl)
  | StructDeclors => forall acc rest, run (NStructDeclorList acc) (ts ++ TTok Semicolon :: rest) S false (Some (node AST_STRUCT_DECLOR_LIST (acc ++ l)), mkpst (TTok Semicolon :: rest) S false)
  | Enumors => forall acc rest fl, run (NEnumorList acc) (ts ++ TTok RBrace :: rest) S fl (Some (node AST_ENUMOR_LIST (acc ++ l)), mkpst (TTok RBrace :: rest) S fl)
  | Enumor => forall rest fl, stops 1 rest -> run NEnumor (ts ++ rest) S fl (Some (one l), mkpst rest S fl)
  | Declor abs td => forall rest, declor_stop rest ->
      run (NDeclor abs) (ts ++ rest) S td (Some (tree_of l), mkpst rest S' td) /\ (abs = true -> td = false -> refused (NDeclor false) (ts ++ rest) S td)
  | Direct abs td => forall rest, declor_stop rest ->
      run (NDirect abs) (ts ++ rest) S td (Some (tree_of l), mkpst rest S' td) /\ (abs = true -> td = false -> refused (NDirect false) (ts ++ rest) S td)
  | Suffixes => forall acc rest fl, declor_stop rest -> run (NSuffixes acc) (ts ++ rest) S fl (Some (node AST_INIT_LIST (acc ++ l)), mkpst rest S fl)
  | Params => forall acc rest fl, run (NParamList acc) (ts ++ TTok RParen :: rest) S fl (Some (node AST_PARAM_LIST (acc ++ l)), mkpst (TTok RParen :: rest) S fl)
  | Param => forall rest fl, item_stop rest -> run NParamDecl (ts ++ rest) S fl (Some (one l), mkpst rest S fl)
  | Init => forall rest fl, stops 1 rest -> run NInit (ts ++ rest) S fl (Some (one l), mkpst rest S fl)
  | Inits => forall acc rest fl, run (NInitList acc) (ts ++ TTok RBrace :: rest) S fl (Some (node AST_INIT_LIST (acc ++ l)), mkpst (TTok RBrace :: rest) S fl)
  | InitDeclor td => forall rest, item_stop rest -> run NInitDeclor (ts ++ rest) S td (Some (one l), mkpst rest S' td) /\ no_body (ts ++ rest) S td
  | InitDeclors td => forall acc rest,
      run (NInitDeclorList acc) (ts ++ TTok Semicolon :: rest) S td (Some (node AST_INIT_DECLOR_LIST (acc ++ l)), mkpst (TTok Semicolon :: rest) S' td) /\
      no_body (ts ++ TTok Semicolon :: rest) S td
  | Decl td => forall rest fl, run NDecl (ts ++ rest) S fl (Some (one l), mkpst rest S' fl) /\ may (ts ++ rest) S fl false
  | Stmt o => forall rest fl, else_stop o rest -> run NStmt (ts ++ rest) S fl (Some (one l), mkpst rest S fl)
  | ExprStmt => forall rest fl, run NExprStmt (ts ++ rest) S fl (Some (one l), mkpst rest S fl)
  | Compound => forall rest fl, run NCompound (ts ++ rest) S fl (Some (one l), mkpst rest S fl)
  | Items => forall acc rest fl, run (NItems acc) (ts ++ TTok RBrace :: rest) S fl (Some (node AST_CMPD_STMT (acc ++ l)), mkpst rest S' fl)
  | External => forall rest fl, exists b, may (ts ++ rest) S fl b /\ run (if b then NFuncDef else NDecl) (ts ++ rest) S fl (Some (one l), mkpst rest S' fl)
  | Unit => forall acc rest fl, run (NTransUnit acc) (ts ++ TTok CtEOF :: rest) S fl (Some (node AST_TRAS_UNIT (acc ++ l)), mkpst (TTok CtEOF :: rest) S' fl)
  end.
