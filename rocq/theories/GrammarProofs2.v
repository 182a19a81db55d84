(** First tokens of phrases; how the parser fails on them. *)
From Verif Require Import Base LiteralModel LexerModel AstModel ParserModel ParserProofs TypeProofs Grammar GrammarProofs.
Open Scope nat_scope.

Definition prim_first (S : list name) (t : token) : Prop :=
  match t with TIdent n => ~ In n S | TInt _ | TChar _ | TStr _ | TTok LParen => True | _ => False end.
Definition expr_first (S : list name) (t : token) : Prop :=
  match t with
  | TIdent n => ~ In n S | TInt _ | TChar _ | TStr _ => True
  | TTok (LParen | And | Asterisk | Plus | Minus | Tilde | Exclam | PlusPlus | MinusMinus | KwSizeof) => True
  | _ => False end.
Definition stmt_first (S : list name) (t : token) : Prop :=
  expr_first S t \/ match t with TTok (KwCase | KwDefault | LBrace | KwContinue | KwBreak | KwReturn | KwIf | KwSwitch | KwWhile | KwFor | Semicolon) => True | _ => False end.
Definition type_first (S : list name) (t : token) : Prop := begins_specifier S t /\ t <> TTok KwTypedef.
Definition name_first (t : token) : Prop := match t with TIdent _ | TTok LParen | TTok Asterisk => True | _ => False end.
Definition abs_first (t : token) : Prop := match t with TTok (LParen | Asterisk | LBracket) => True | _ => False end.

Definition second_ok (S : list name) (r : list token) : Prop := match r with [] => False | u :: _ => ~ begins_specifier S u end.
Definition firsts (N : symbol) (S : list name) (ts : list token) : Prop :=
  match N with
  | Primary | Postfix => exists t r, ts = t :: r /\ prim_first S t /\ (t = TTok LParen -> second_ok S r)
  | Unary => exists t r, ts = t :: r /\ expr_first S t /\ (t = TTok LParen -> second_ok S r)
  | Cast | Bin _ | Cond | Assign | ArgList => exists t r, ts = t :: r /\ expr_first S t
  | TypeSpec | SpecQual | TypeName | StructDecl | StructDecls => exists t r, ts = t :: r /\ type_first S t
  | DeclSpecs | Decl _ | Param | Params | External | Unit => exists t r, ts = t :: r /\ begins_specifier S t
  | Enumor | Enumors => exists n r, ts = TIdent n :: r
  | Init | Inits => exists t r, ts = t :: r /\ (expr_first S t \/ t = TTok LBrace)
  | Direct false _ => exists t r, ts = t :: r /\ match t with TIdent _ | TTok LParen => True | _ => False end
  | Direct true _ => ts = [] \/ exists t r, ts = t :: r /\ (t = TTok LParen \/ t = TTok LBracket)
  | Declor false _ | InitDeclor _ | InitDeclors _ | StructDeclors => exists t r, ts = t :: r /\ name_first t
  | Declor true _ => ts = [] \/ exists t r, ts = t :: r /\ abs_first t
  | Suffixes => ts = [] \/ exists t r, ts = t :: r /\ (t = TTok LParen \/ t = TTok LBracket)
  | Stmt _ => exists t r, ts = t :: r /\ stmt_first S t
  | ExprStmt => exists t r, ts = t :: r /\ (expr_first S t \/ t = TTok Semicolon)
  | Compound => exists r, ts = TTok LBrace :: r
  | Items => ts = [] \/ exists t r, ts = t :: r /\ (stmt_first S t \/ begins_specifier S t)
  | _ => True
  end.

Lemma prim_expr S t : prim_first S t -> expr_first S t.
Proof. destruct t as [[]| | | |]; cbn; auto. Qed.
Lemma expr_not_spec S t : expr_first S t -> ~ begins_specifier S t.
Proof. destruct t as [[]| | | |]; cbn; auto. Qed.
Lemma stmt_not_spec S t : stmt_first S t -> ~ begins_specifier S t.
Proof. intros [H|H]; [now apply expr_not_spec|]. destruct t as [[]| | | |]; cbn in *; auto. Qed.
Lemma second_app S ts us : second_ok S ts -> second_ok S (ts ++ us).
Proof. destruct ts; cbn; [intros []|auto]. Qed.

Ltac op_cases :=
  repeat match goal with
  | H : In _ _ |- _ => progress cbn in H
  | H : _ \/ _ |- _ => destruct H as [H|H]
  | H : (_, _) = (_, _) |- _ => inversion H; subst; clear H
  | H : False |- _ => destruct H
  end.

Lemma G_first N S ts l S' : G N S ts l S' -> firsts N S ts.
Proof.
  induction 1; unfold firsts in *; cbn [operand_of] in *;
  repeat match goal with
  | H : exists _, _ |- _ => destruct H
  | H : _ /\ _ |- _ => destruct H
  | H : ?x :: ?y = _ |- _ => inversion H; subst; clear H
  end; subst; cbn [app]; try exact I;
  try (do 2 eexists; split; [reflexivity|]; first
    [ exact I | assumption
    | split; [first [exact I | assumption | eapply prim_expr; assumption]|];
      first [discriminate | intros _; cbn; apply expr_not_spec; assumption | assumption
            | intros E; apply second_app; auto ]
    | now apply prim_expr
    | left; now apply prim_expr | left; assumption | right; reflexivity | right; exact I
    | split; [exact I | discriminate]
    ]).
  - do 2 eexists; split; [reflexivity|]. op_cases; cbn; (split; [exact I|discriminate]).
  - do 2 eexists; split; [reflexivity|]. op_cases; cbn; (split; [exact I|discriminate]).
  - do 10 (destruct k as [|k]; [first [lia | cbn in IHG; destruct IHG as (t & r & -> & F); eauto]|]). destruct k; [|lia].
    destruct IHG as (t & r & -> & F); eauto.
  - do 2 eexists; split; [reflexivity|]. op_cases; (split; [exact I|discriminate]).
  - match goal with H : type_first _ _ |- _ => destruct H end. eauto.
  - match goal with H : type_first S x1 |- _ => destruct H end. eauto.
  - eauto.
  - eauto.
  - eauto.
  - eauto.
  - eauto.
  - destruct n; cbn; [|destruct abs; [right|]; (do 2 eexists; split; [reflexivity|exact I])]. destruct abs.
    + destruct IHG as [->|(t & r & -> & [-> | ->])]; [left; reflexivity| |]; (right; do 2 eexists; split; [reflexivity|exact I]).
    + destruct IHG as (t & r & -> & F). do 2 eexists; split; [reflexivity|]. destruct t as [[]| | | |]; cbn in *; auto.
  - exact IHG.
  - destruct abs; [right|]; (do 2 eexists; split; [reflexivity|]; first [exact I | auto]).
  - left; reflexivity.
  - right. do 2 eexists; split; [reflexivity|auto].
  - right. do 2 eexists; split; [reflexivity|auto].
  - do 2 eexists; split; [reflexivity|]. match goal with H : _ \/ _ |- _ => destruct H as [H | ->] end; [now left|right; exact I].
  - eauto.
  - left; reflexivity.
  - right. destruct H as [-> | [-> | ->]]; destruct IHG1 as (t & r & -> & F); (do 2 eexists; split; [reflexivity|]; auto).
Qed.

(** fails at once on the tokens [t :: _] *)
Notation run N ts S fl r := (Ev (fun f => parse f N (mkpst ts S fl)) r) (only parsing).

Lemma ctype_eqb_refl t : ctype_eqb t t = true.
Proof. now apply ctype_eqb_spec. Qed.
Lemma ctype_eqb_neq a b : a <> b -> ctype_eqb a b = false.
Proof. intros H. destruct (ctype_eqb a b) eqn:E; [|reflexivity]. apply ctype_eqb_spec in E. contradiction. Qed.
Lemma is_typedef_name_in S n : is_typedef_name S n = true <-> In n S.
Proof.
  unfold is_typedef_name. rewrite existsb_exists. split.
  - intros (m & I & E). apply name_eqb_eq in E. now subst.
  - intros I. exists n. split; [exact I|]. now apply name_eqb_eq.
Qed.
Lemma is_typedef_name_out S n : ~ In n S -> is_typedef_name S n = false.
Proof. intros H. destruct (is_typedef_name S n) eqn:E; [|reflexivity]. apply is_typedef_name_in in E. contradiction. Qed.
Lemma type_first_ok S t : type_first S t <-> is_type_specifier S t = true.
Proof.
  unfold type_first. destruct t as [[]|n| | |]; cbn; try (rewrite is_typedef_name_in); intuition congruence.
Qed.
Lemma begins_ok S t : begins_specifier S t <-> is_storage_class t || is_type_specifier S t = true.
Proof.
  destruct t as [[]|n| | |]; cbn; try (rewrite is_typedef_name_in); intuition congruence.
Qed.

Ltac evs := apply ev_parse; cbn [body].
Ltac toks := unfold consume; cbn [peek bind toks tdnames tdflag advance with_toks with_flag with_names ttype tl];
  repeat match goal with |- context [ctype_eqb ?t ?t] => rewrite (ctype_eqb_refl t) end;
  repeat match goal with |- context [ctype_eqb ?a ?b] => rewrite (ctype_eqb_neq a b) by first [discriminate | assumption] end;
  cbn [negb peek bind toks tdnames tdflag advance with_toks with_flag with_names ttype tl pop_stack].

Section Fails.
Variables (S : list name) (fl : bool) (t : token) (r : list token).
Hypothesis F : begins_specifier S t.
Lemma spec_primary : run NPrimary (t :: r) S fl (None, mkpst (t :: r) S fl).
Proof.
  evs. unfold parse_primary. toks. destruct t as [[]|n| | |]; cbn in F; try destruct F; try apply ev_perr.
  cbn [tdnames]. rewrite (proj2 (is_typedef_name_in S n) F). apply ev_perr.
Qed.
Lemma spec_postfix : run NPostfix (t :: r) S fl (None, mkpst (t :: r) S fl).
Proof. evs. apply ev_pfail. apply spec_primary. Qed.
Lemma spec_unary : run NUnary (t :: r) S fl (None, mkpst (t :: r) S fl).
Proof. pose proof spec_postfix as K. evs. unfold parse_unary. toks. destruct t as [[]|n| | |]; cbn [ttype]; try (exfalso; exact F); exact K. Qed.
Lemma spec_cast stack : run (NCast stack) (t :: r) S fl (None, mkpst (t :: r) S fl).
Proof.
  evs. unfold parse_cast. cbn [peek bind ParserModel.toks]. rewrite (ctype_eqb_neq (ttype t) LParen); cbn [negb].
  - apply ev_pfail. apply spec_unary.
  - destruct t as [[]|n| | |]; cbn in *; try discriminate; contradiction.
Qed.
Lemma spec_level l : run (NLevel l) (t :: r) S fl (None, mkpst (t :: r) S fl).
Proof.
  assert (M : run (NLevel LMul) (t :: r) S fl (None, mkpst (t :: r) S fl)) by (evs; apply ev_pfail; apply spec_cast).
  destruct l; repeat first [exact M | evs; apply ev_pfail; cbn [operand]].
Qed.
Lemma spec_cond : run NCond (t :: r) S fl (None, mkpst (t :: r) S fl).
Proof. evs. apply ev_pfail. apply spec_level. Qed.
Lemma spec_assign stack : run (NAssign stack) (t :: r) S fl (None, mkpst (t :: r) S fl).
Proof.
  evs. unfold parse_assign. eapply ev_bind; [apply spec_unary|]. cbn [toks with_toks]. unfold assign_end.
  apply ev_pfail. apply spec_cond.
Qed.
(** `(` and a type name are not an expression *)
Lemma paren_unary : run NUnary (TTok LParen :: t :: r) S fl (None, mkpst (t :: r) S fl).
Proof.
  evs. unfold parse_unary. toks. evs. apply ev_pfail. evs. unfold parse_primary. toks. apply ev_pfail. apply spec_assign.
Qed.
End Fails.

(** not a type name: an expression in parentheses is not a cast *)
Lemma not_type_name S fl t r : ~ begins_specifier S t -> run NTypeName (t :: r) S fl (None, mkpst (t :: r) S fl).
Proof.
  intros F. evs. unfold parse_type_name. eapply ev_bind.
  - evs. unfold parse_spec_qual. toks. destruct (is_type_specifier S t) eqn:E.
    + exfalso. apply F, begins_ok. now rewrite E, orb_true_r.
    + apply ev_perr.
  - cbn [with_flag toks tdnames tdflag]. apply ev_perr.
Qed.
Global Arguments ctype_eqb : simpl never.
