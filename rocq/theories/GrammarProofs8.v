(** Whatever the parser accepts is a phrase of the grammar: declarations, statements, programs. *)
From Verif Require Import Base LiteralModel LexerModel AstModel ParserModel ParserProofs TypeProofs Grammar GrammarProofs GrammarProofs2 GrammarProofs3 GrammarProofs4 GrammarProofs5 GrammarProofs6 GrammarProofs7.
Open Scope nat_scope.

Section Sound.
Variable f : nat.
Hypothesis T : sound f.

(* ----------------------------------------------------------- declarations *)
Lemma s_init d ts S fl : typedefs_outside d ts -> V (claim d NInit ts S fl) (parse_init (parse f) (mkpst ts S fl)).
Proof.
  intros O. unfold parse_init. vstep. destruct (ctype_eqb (ttype t) LBrace) eqn:E.
  - tok E t. vstep. keep D. destruct D0 as (l & -> & D). outs. vstep. vstep. read (TTok LBrace :: us ++ [TTok RBrace]). split; auto. apply g_init_list. exact D.
  - vstep. call. keep D. destruct D0 as (b & -> & D). read us. split; auto. apply g_init. exact D.
Qed.
Lemma s_init_list d acc ts S fl : typedefs_outside d ts -> V (claim d (NInitList acc) ts S fl) (parse_init_list (parse f) acc (mkpst ts S fl)).
Proof.
  intros O. unfold parse_init_list. vstep. keep D. vstep. destruct (ctype_eqb _ _).
  - vstep. read us. split; auto. exists [a]. split; [reflexivity|]. apply g_inits. exact D0.
  - vstep. vstep. destruct (ctype_eqb _ _).
    + vstep. read (us ++ [TTok Comma]). split; auto. exists [a]. split; [reflexivity|]. apply g_inits_comma. exact D0.
    + vstep. call. keep D. destruct D1 as (l & -> & D1). read (us ++ TTok Comma :: us0). split; auto. exists (a :: l). split; [rewrite <- app_assoc; reflexivity|]. apply g_inits_more; auto.
Qed.
Lemma s_init_declor d ts S fl : typedefs_outside d ts -> V (claim d NInitDeclor ts S fl) (parse_init_declor (parse f) (mkpst ts S fl)).
Proof.
  intros O. unfold parse_init_declor. vstep. destruct D as ((x & k & -> & D) & _ & ->). outs. vstep. destruct (ctype_eqb (ttype t) Equal) eqn:E.
  - tok E t. vstep. keep D0. vstep. read (us ++ TTok Equal :: us0). split; auto. apply g_init_declor_value; auto.
  - vstep. read us. split; auto. apply g_init_declor. exact D.
Qed.
Lemma s_init_declor_list d acc ts S fl : typedefs_outside d ts -> V (claim d (NInitDeclorList acc) ts S fl) (parse_init_declor_list (parse f) acc (mkpst ts S fl)).
Proof.
  intros O. unfold parse_init_declor_list. vstep. destruct D as (D & ->). outs. vstep. destruct (ctype_eqb (ttype t) Comma) eqn:E.
  - tok E t. vstep. call. destruct D0 as ((l & -> & D0) & ->). read (us ++ TTok Comma :: us0). split; auto. exists (a :: l). split; [rewrite <- app_assoc; reflexivity|]. eapply g_init_declors_more; eauto.
  - vstep. read us. split; auto. exists [a]. split; [reflexivity|]. apply g_init_declors. exact D.
Qed.
Lemma s_decl d ts S fl : typedefs_outside d ts -> V (claim d NDecl ts S fl) (parse_decl (parse f) (mkpst ts S fl)).
Proof.
  intros O. unfold parse_decl. st. vstep. call; [|vstep]. destruct D as ((l & -> & D & -> & D2) & D3 & ->). destruct D as [D|(_ & _ & D)]; [|congruence]. outs. st. vstep.
  destruct (ctype_eqb (ttype t) Semicolon) eqn:E.
  - tok E t. vstep. read (us ++ [TTok Semicolon]). split; auto. exists (is_typedef l). split; [|exact D2]. apply g_decl_empty. exact D.
  - st. vstep. call; [|vstep]. destruct D0 as ((ds & -> & D0) & ->). outs. vstep. vstep.
    read (us ++ us0 ++ [TTok Semicolon]). split; auto. exists (is_typedef l). split; [|exact D2]. apply g_decl; auto. eapply no_specifier_app; eauto.
Qed.

(* ------------------------------------------------------------- statements *)
Lemma s_expr_stmt d ts S fl : typedefs_outside d ts -> V (claim d NExprStmt ts S fl) (parse_expr_stmt (parse f) (mkpst ts S fl)).
Proof.
  intros O. unfold parse_expr_stmt, parse_expr. vstep. destruct (ctype_eqb (ttype t) Semicolon) eqn:E.
  - tok E t. vstep. read [TTok Semicolon]. split; auto. apply g_null_stmt.
  - vstep. keep D. destruct D0 as (b & -> & D). outs. vstep. vstep. read (us ++ [TTok Semicolon]). split; auto. apply g_expr_stmt. exact D.
Qed.
Lemma s_case d ts S fl : typedefs_outside d ts -> V (claim d NCase ts S fl) (parse_case (parse f) (mkpst ts S fl)).
Proof.
  intros O. unfold parse_case, parse_expr. vstep. vstep. keep D. destruct D0 as (b & -> & D). outs. vstep. vstep. destruct D0 as (D0 & -> & ->). vstep.
  read (TTok KwCase :: us ++ TTok Colon :: us0). split; auto. intros o Fo. apply g_case; auto.
Qed.
Lemma s_default d ts S fl : typedefs_outside d ts -> V (claim d NDefault ts S fl) (parse_default (parse f) (mkpst ts S fl)).
Proof.
  intros O. unfold parse_default. vstep. vstep. vstep. destruct D as (D & -> & ->). vstep. read (TTok KwDefault :: TTok Colon :: us). split; auto. intros o Fo. apply g_default; auto.
Qed.
Lemma s_continue d ts S fl : typedefs_outside d ts -> V (claim d NContinue ts S fl) (parse_continue (mkpst ts S fl)).
Proof. intros O. unfold parse_continue. vstep. vstep. vstep. read [TTok KwContinue; TTok Semicolon]. split; auto. intros o Fo. apply g_continue. Qed.
Lemma s_break d ts S fl : typedefs_outside d ts -> V (claim d NBreak ts S fl) (parse_break (mkpst ts S fl)).
Proof. intros O. unfold parse_break. vstep. vstep. vstep. read [TTok KwBreak; TTok Semicolon]. split; auto. intros o Fo. apply g_break. Qed.
Lemma s_return d ts S fl : typedefs_outside d ts -> V (claim d NReturn ts S fl) (parse_return (parse f) (mkpst ts S fl)).
Proof.
  intros O. unfold parse_return, parse_expr. vstep. vstep. destruct (ctype_eqb (ttype t) Semicolon) eqn:E.
  - tok E t. vstep. read [TTok KwReturn; TTok Semicolon]. split; auto. intros o Fo. apply g_return.
  - vstep. keep D. destruct D0 as (b & -> & D). outs. vstep. vstep. read (TTok KwReturn :: us ++ [TTok Semicolon]). split; auto. intros o Fo. apply g_return_value. exact D.
Qed.
Lemma s_if d ts S fl : typedefs_outside d ts -> V (claim d NIf ts S fl) (parse_if (parse f) (mkpst ts S fl)).
Proof.
  intros O. unfold parse_if, parse_expr. vstep. vstep. vstep. keep D. destruct D0 as (b & -> & D). outs. vstep. vstep. destruct D0 as (D0 & -> & ->).
  assert (D1 : G (Stmt true) S us0 [a] S) by (apply D0; discriminate). outs. vstep. destruct (ctype_eqb (ttype t) KwElse) eqn:E.
  - tok E t. vstep. destruct D2 as (D2 & -> & ->). vstep. read (TTok KwIf :: TTok LParen :: us ++ TTok RParen :: us0 ++ TTok KwElse :: us1). split; auto.
    intros o Fo. apply g_if_else; auto. apply D0. intros _. reflexivity.
  - vstep. read (TTok KwIf :: TTok LParen :: us ++ TTok RParen :: us0). split; auto. intros o Fo. destruct o.
    + apply g_if; auto.
    + specialize (Fo eq_refl). cbn in Fo. rewrite Fo, ctype_eqb_refl in E. discriminate E.
Qed.
Lemma s_switch d ts S fl : typedefs_outside d ts -> V (claim d NSwitch ts S fl) (parse_switch (parse f) (mkpst ts S fl)).
Proof.
  intros O. unfold parse_switch, parse_expr. vstep. vstep. vstep. keep D. destruct D0 as (b & -> & D). outs. vstep. vstep. destruct D0 as (D0 & -> & ->). vstep.
  read (TTok KwSwitch :: TTok LParen :: us ++ TTok RParen :: us0). split; auto. intros o Fo. apply g_switch; auto.
Qed.
Lemma s_while d ts S fl : typedefs_outside d ts -> V (claim d NWhile ts S fl) (parse_while (parse f) (mkpst ts S fl)).
Proof.
  intros O. unfold parse_while, parse_expr. vstep. vstep. vstep. keep D. destruct D0 as (b & -> & D). outs. vstep. vstep. destruct D0 as (D0 & -> & ->). vstep.
  read (TTok KwWhile :: TTok LParen :: us ++ TTok RParen :: us0). split; auto. intros o Fo. apply g_while; auto.
Qed.
Lemma s_for d ts S fl : typedefs_outside d ts -> V (claim d NFor ts S fl) (parse_for (parse f) (mkpst ts S fl)).
Proof.
  intros O. unfold parse_for, for_body, parse_expr. vstep. vstep. vstep.
  assert (R : forall is i r0, t :: r = is ++ r0 -> (exists N, (N = ExprStmt \/ N = Decl false) /\ G N S is [i] S) -> 
    V (claim d NFor (TTok KwFor :: TTok LParen :: t :: r) S fl) 
     (ptry c, st <- parse f NExprStmt (mkpst r0 S fl);
      do t0 <- peek st;
      (if ctype_eqb (ttype t0) RParen
       then ptry s, st0 <- parse f NStmt (advance st); pok (new_ast AST_FOR_STMT [i; c; new_ast AST_NULL_STMT []; s]) st0
       else ptry e, st0 <- parse f (NAssign []) st;
        consume RParen st0 (fun st1 => ptry s, st2 <- parse f NStmt st1; pok (new_ast AST_FOR_STMT [i; c; new_ast AST_EXPR_STMT [e]; s]) st2)))).
  { intros is i r0 E (N & HN & Di). rewrite E in *. clear E. outs. vstep. keep D. vstep. destruct (ctype_eqb (ttype t0) RParen) eqn:E.
    - tok E t0. vstep. destruct D as (D & -> & ->). vstep. read (TTok KwFor :: TTok LParen :: is ++ us ++ TTok RParen :: us0). split; auto. intros o Fo. eapply g_for; eauto.
    - vstep. keep D. destruct D1 as (b & -> & D1). outs. vstep. vstep. destruct D as (D & -> & ->). vstep.
      read (TTok KwFor :: TTok LParen :: is ++ us ++ us0 ++ TTok RParen :: us1). split; auto. intros o Fo. eapply g_for_step; eauto. }
  st. destruct (item_may_decl (mkpst (t :: r) S fl) t).
  - vstep. destruct D as ((td & D & D2) & ->). assert (td = false) as -> by (apply D2; discriminate). pose proof (G_same _ _ _ _ _ D eq_refl) as ->.
    exact (R us a r0 eq_refl (ex_intro _ (Decl false) (conj (or_intror eq_refl) D))).
  - vstep. destruct D as (D & -> & ->). exact (R us a r0 eq_refl (ex_intro _ ExprStmt (conj (or_introl eq_refl) D))).
Qed.
Lemma s_items d acc ts S fl : typedefs_outside d ts -> V (claim d (NItems acc) ts S fl) (parse_items (parse f) acc (mkpst ts S fl)).
Proof.
  intros O. unfold parse_items. vstep. destruct (ctype_eqb (ttype t) RBrace) eqn:E.
  - tok E t. vstep. read [TTok RBrace]. split; auto. exists [], []. split; [reflexivity|]. rewrite app_nil_r. split; [reflexivity|constructor].
  - st. destruct (item_may_decl (mkpst (t :: r) S fl) t).
    + vstep. destruct D as ((td & D & _) & ->). outs. vstep. call. destruct D0 as ((vs & l & -> & -> & D0) & ->). read (us ++ vs ++ [TTok RBrace]). split; auto.
      exists (us ++ vs), (a :: l). split; [list_eq|]. split; [rewrite <- app_assoc; reflexivity|]. eapply (g_item S (Decl td)); eauto. destruct td; auto.
    + vstep. destruct D as (D & -> & ->). assert (D1 : G (Stmt true) S us [a] S) by (apply D; discriminate). outs. vstep. call. destruct D0 as ((vs & l & -> & -> & D0) & ->).
      read (us ++ vs ++ [TTok RBrace]). split; auto.
      exists (us ++ vs), (a :: l). split; [list_eq|]. split; [rewrite <- app_assoc; reflexivity|]. eapply (g_item S (Stmt true)); eauto.
Qed.
Lemma s_compound d ts S fl : typedefs_outside d ts -> V (claim d NCompound ts S fl) (parse_compound (parse f) (mkpst ts S fl)).
Proof.
  intros O. unfold parse_compound. vstep. st. vstep. intros o r' S' fl' C o2 ts2 S2 fl2 E. injection E as <- <- <- <-. destruct o as [a|]; [|cbn; intros []].
  destruct C as (us & -> & (vs & l & -> & -> & D) & ->). read (TTok LBrace :: vs ++ [TTok RBrace]). split; auto. eapply g_compound. exact D.
Qed.
Lemma s_stmt d ts S fl : typedefs_outside d ts -> V (claim d NStmt ts S fl) (parse_stmt (parse f) (mkpst ts S fl)).
Proof.
  intros O. unfold parse_stmt. vstep. destruct (ttype t) eqn:E; vstep; call; destruct D as (D & -> & ->); read us; split; auto; intros o Fo;
  first [apply D; exact Fo | apply g_stmt_expr; exact D | apply g_stmt_compound; exact D].
Qed.

(* --------------------------------------------------------------- programs *)
Lemma s_func_def d ts S fl : typedefs_outside d ts -> V (claim d NFuncDef ts S fl) (parse_func_def (parse f) (mkpst ts S fl)).
Proof.
  intros O. unfold parse_func_def. st. vstep. call; [|vstep]. destruct D as ((l & -> & D & -> & D2) & D3 & ->). destruct D as [D|(_ & _ & D)]; [|congruence]. outs. st.
  vstep. call; [|vstep]. destruct D0 as ((x & k & -> & D0) & _ & ->). outs. vstep. destruct D1 as (D1 & -> & ->). vstep.
  read (us ++ us0 ++ us1). split; auto. apply g_function_definition; auto. eapply no_specifier_app; eauto.
Qed.
Lemma s_trans_unit d acc ts S fl : typedefs_outside d ts -> V (claim d (NTransUnit acc) ts S fl) (parse_trans_unit (parse f) acc (mkpst ts S fl)).
Proof.
  intros O. unfold parse_trans_unit. apply V_any. intros [b|]; [|vstep].
  assert (R : forall us r a S', ts = us ++ r -> G External S us [a] S' ->
    V (claim d (NTransUnit acc) ts S fl) (do t <- peek (mkpst r S' fl); if ctype_eqb (ttype t) CtEOF then pok (new_ast AST_TRAS_UNIT (acc ++ [a])) (mkpst r S' fl) else parse f (NTransUnit (acc ++ [a])) (mkpst r S' fl))).
  { intros us r a S' -> D. outs. vstep. destruct (ctype_eqb (ttype t) CtEOF) eqn:E.
    - tok E t. vstep. read us. split; [|split; [exact Logic.I|reflexivity]]. exists [a]. split; [reflexivity|]. apply g_unit. exact D.
    - vstep. call. destruct D0 as ((l & -> & D0) & D1 & ->). read (us ++ us0). split; [|auto]. exists (a :: l). split; [rewrite <- app_assoc; reflexivity|]. eapply g_unit_more; eauto. }
  destruct b; vstep.
  - destruct D as (D & ->). apply (R us); auto.
  - destruct D as ((td & D & _) & ->). apply (R us); auto. eapply g_declaration. exact D.
Qed.

Lemma sound_step : sound (S f).
Proof.
  intros d N ts S fl o ts' S' fl' O I E. cbn [parse] in E. revert E. 
  enough (W : V (claim d N ts S fl) (body (parse f) N (mkpst ts S fl))) by (intros E; exact (W _ _ _ _ E)).
  destruct N; cbn [body].
  - apply s_trans_unit; auto.
  - apply s_func_def; auto.
  - apply s_decl; auto.
  - apply s_type_name; auto.
  - apply s_decl_specs; auto.
  - apply s_spec_qual; auto.
  - apply s_type_spec; auto.
  - apply s_struct; auto.
  - apply s_struct_decl_list; auto.
  - apply s_struct_decl; auto.
  - apply s_struct_declor_list; auto.
  - apply s_enum; auto.
  - apply s_enumor_list; auto.
  - apply s_enumor; auto.
  - apply s_init_declor_list; auto.
  - apply s_init_declor; auto.
  - apply s_declor; auto.
  - apply s_direct; auto.
  - apply s_suffixes; auto.
  - apply s_param_list; auto. apply I. exact Logic.I.
  - apply s_param_decl; auto. apply I. exact Logic.I.
  - apply s_init; auto.
  - apply s_init_list; auto.
  - apply s_stmt; auto.
  - apply s_case; auto.
  - apply s_default; auto.
  - apply s_compound; auto.
  - apply s_items; auto.
  - apply s_continue; auto.
  - apply s_break; auto.
  - apply s_return; auto.
  - apply s_expr_stmt; auto.
  - apply s_if; auto.
  - apply s_switch; auto.
  - apply s_while; auto.
  - apply s_for; auto.
  - apply s_assign; auto.
  - apply s_cond; auto.
  - apply s_level; auto.
  - apply s_tail; auto.
  - apply s_cast; auto.
  - apply s_unary; auto.
  - apply s_preinc; auto.
  - apply s_unary_op; auto.
  - apply s_sizeof; auto.
  - apply s_postfix; auto.
  - apply s_postfix_tail; auto.
  - apply s_args; auto.
  - apply s_args_tail; auto.
  - apply s_primary; auto.
Qed.
End Sound.

Lemma parse_sound f : sound f.
Proof. induction f as [|f IH]; [intros d N ts S fl o ts' S' fl' _ _ E; discriminate E|]. apply sound_step. exact IH. Qed.

Theorem grammar_sound ts a : typedefs_outside 0 ts -> parse_tokens ts = Ok a ->
  exists us rest l S, ts = us ++ TTok CtEOF :: rest /\ G Unit [] us l S /\ a = Ast AST_TRAS_UNIT PNone l.
Proof.
  intros O E. unfold parse_tokens in E. destruct (parse (parse_fuel ts) (NTransUnit []) (mkpst ts [] false)) as [[[b|] [ts1 S1 fl1]]| | | |] eqn:P; try discriminate E. 
  cbn [bind] in E. injection E as ->. apply (parse_sound _ 0) in P; [|exact O|intros []]. destruct P as (us & -> & (l & -> & D) & K & _).
  destruct ts1 as [|[[]| | | |] rest]; try destruct K. exists us, rest, l, S1. auto.
Qed.
