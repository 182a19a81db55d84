(** Whatever the parser accepts is a phrase of the grammar: expressions. *)
From Verif Require Import Base LiteralModel LexerModel AstModel ParserModel ParserProofs TypeProofs Grammar GrammarProofs GrammarProofs2 GrammarProofs3 GrammarProofs4 GrammarProofs5.
Open Scope nat_scope.

Lemma ttype_tok t c : ttype t = c -> c <> CtIdent -> c <> CtInt -> c <> CtChar -> c <> CtString -> t = TTok c.
Proof. intros E H1 H2 H3 H4. destruct t; cbn in E; subst; congruence. Qed.
Lemma V_any {A} (Q : post_cond) (m : res A) k : (forall x, V Q (k x)) -> V Q (bind m k).
Proof. intros H o ts S fl E. destruct m; try discriminate E. exact (H _ _ _ _ _ E). Qed.
Lemma V_fatal (Q : post_cond) : V Q Fatal.
Proof. intros o ts S fl E. discriminate E. Qed.
Lemma level_op_in l t ty : level_op l t = Some ty -> In (lev l, t, ty) binary_operators.
Proof. destruct l, t; intros E; try discriminate E; injection E as <-; cbn; auto 30. Qed.
Lemma assign_op_in t ty : assign_op t = Some ty -> In (t, ty) assignment_operators.
Proof. destruct t; intros E; try discriminate E; injection E as <-; cbn; auto 30. Qed.
Lemma op_token t : (exists l ty, level_op l (ttype t) = Some ty) \/ (exists ty, assign_op (ttype t) = Some ty) -> t = TTok (ttype t).
Proof. destruct t; auto; intros [(l & ty & E)|(ty & E)]; try destruct l; discriminate E. Qed.
Lemma lev_range l : 1 <= lev l <= 10. Proof. destruct l; cbn; lia. Qed.

(** one step through the body of a parsing function *)
Ltac outs := repeat match goal with
  | O : typedefs_outside _ (TTok ?c :: _) |- _ => (tryif is_var c then fail else (progress cbn [typedefs_outside pred] in O))
  | O : typedefs_outside _ (TIdent _ :: _) |- _ => progress cbn [typedefs_outside pred] in O
  | O : typedefs_outside _ (?us ++ _), D : G _ _ ?us _ _ |- _ => apply (G_out _ _ _ _ _ D) in O
  | O : typedefs_outside _ ([] ++ _) |- _ => cbn [app] in O
  end.
Ltac st := unfold advance, with_toks, with_flag, with_names; cbn [advance with_toks with_flag with_names ParserModel.toks tdnames tdflag tl].
Ltac fin_none := try (intros ? ? ?); cbn [claim]; let C := fresh "C" in
  repeat match goal with H : quiet _ _ -> _ |- _ => revert H end; intros; cbn [claim quiet] in *; intuition congruence.
Ltac within := solve [intros [] | intros _; first [assumption | discriminate]].
Ltac vstep :=
  st;
  lazymatch goal with
  | |- V _ (pok _ (mkpst _ _ _)) => apply V_pok
  | |- V _ (perr (mkpst _ _ _)) => apply V_perr; try (fin_none; fail)
  | |- V _ Fatal => apply V_fatal
  | |- V _ (bind (peek (mkpst ?ts _ _)) _) => let t := fresh "t" in let r := fresh "r" in let E := fresh "E" in apply V_peek; intros t r E; first [subst ts | injection E as <- <-]
  | |- V _ (consume ?c (mkpst ?ts _ _) _) => let r := fresh "r" in let E := fresh "E" in apply V_consume; [discriminate|discriminate|discriminate|discriminate|intros r E; first [subst ts | injection E as -> ->]; outs|try (fin_none; fail)]
  | T : sound ?f |- V _ (pbind (parse ?f ?N (mkpst ?ts ?S ?fl)) _) =>
    match goal with O : typedefs_outside ?d ts |- _ =>
      apply (V_try f T _ d N ts S fl);
      [exact O|within
      |let a := fresh "a" in let us := fresh "us" in let r := fresh "r" in let S' := fresh "S'" in let fl' := fresh "fl'" in let D := fresh "D" in
       let E := fresh "E" in intros a us r S' fl' E D; first [subst ts | rewrite E in *; clear E]; cbn [derived] in D
      |try (fin_none; fail)] end
  | T : sound ?f |- V _ (bind (parse ?f ?N (mkpst ?ts ?S ?fl)) _) =>
    match goal with O : typedefs_outside ?d ts |- _ =>
      apply (V_rec f T _ d N ts S fl); [exact O|within|] end
  | T : sound ?f |- V _ (parse ?f ?N (mkpst ?ts ?S ?fl)) =>
    match goal with O : typedefs_outside ?d ts |- _ =>
      apply (V_call f T _ d N ts S fl); [exact O|within|] end
  end.
Ltac call := let o := fresh "o" in let r := fresh "r" in let S' := fresh "S'" in let fl' := fresh "fl'" in let C := fresh "C" in
  let a := fresh "a" in let us := fresh "us" in let D := fresh "D" in
  intros o r S' fl' C; destruct o as [a|]; [let E := fresh "E" in destruct C as (us & E & D); lazymatch type of E with ?ts = _ => first [subst ts | rewrite E in *; clear E] end; cbn [derived] in D|try (fin_none; fail)].
Ltac keep D := let D1 := fresh "D" in destruct D as (D1 & -> & ->); outs.
Ltac list_eq := repeat rewrite <- ?app_assoc, <- ?app_comm_cons; cbn [app]; repeat rewrite <- ?app_assoc; reflexivity.
Ltac read us := cbn [claim derived]; exists us; split; [list_eq|].

Section Sound.
Variable f : nat.
Hypothesis T : sound f.

Lemma s_primary d ts S fl : typedefs_outside d ts -> V (claim d NPrimary ts S fl) (parse_primary (parse f) (mkpst ts S fl)).
Proof.
  intros O. unfold parse_primary. vstep. destruct t as [c|n|i|i|s].
  - destruct c; try (vstep; fail). outs. unfold parse_expr. vstep. keep D. destruct D0 as (b & -> & D). outs. vstep. vstep.
    read (TTok LParen :: us ++ [TTok RParen]). split; auto. apply g_paren. exact D.
  - st. destruct (is_typedef_name S n) eqn:E; vstep. read [TIdent n]. split; auto. apply g_ident.
    intros I. apply is_typedef_name_in in I. congruence.
  - vstep. read [TInt i]. split; auto. constructor.
  - vstep. read [TChar i]. split; auto. constructor.
  - vstep. read [TStr s]. split; auto. constructor.
Qed.
Lemma s_postfix d ts S fl : typedefs_outside d ts -> V (claim d NPostfix ts S fl) (parse_postfix (parse f) (mkpst ts S fl)).
Proof.
  intros O. unfold parse_postfix. vstep. keep D. vstep. call. keep D. read (us ++ us0). split; auto. apply D1. apply g_primary. exact D0.
Qed.
Lemma s_postfix_tail d a ts S fl : typedefs_outside d ts -> V (claim d (NPostfixTail a) ts S fl) (parse_postfix_tail (parse f) a (mkpst ts S fl)).
Proof.
  assert (M : forall o ty r, In (o, ty) member_operators -> typedefs_outside d r ->
    V (claim d (NPostfixTail a) (TTok o :: r) S fl) (member_name (parse f) ty a (mkpst r S fl))).
  { intros o ty r I O. unfold member_name. vstep. destruct t as [c|n|i|i|s]; try (vstep; fail). outs. vstep. call. keep D.
    read (TTok o :: TIdent n :: us). split; auto. intros vs Hv.
    replace (vs ++ TTok o :: TIdent n :: us) with ((vs ++ [TTok o; TIdent n]) ++ us) by list_eq. apply D0. apply (g_member S vs a o ty n); auto. }
  intros O. unfold parse_postfix_tail. vstep.
  destruct (ttype t) eqn:E; try (vstep; read (@nil token); split; auto; intros vs Hv; rewrite app_nil_r; exact Hv).
  all: apply ttype_tok in E; try discriminate; subst t; outs; try (st; apply M; cbn; auto; fail).
  - unfold parse_expr. vstep. keep D. destruct D0 as (b & -> & D). outs. vstep. vstep. call. keep D0. read (TTok LBracket :: us ++ TTok RBracket :: us0). split; auto.
    intros vs Hv. replace (vs ++ TTok LBracket :: us ++ TTok RBracket :: us0) with ((vs ++ TTok LBracket :: us ++ [TTok RBracket]) ++ us0) by list_eq.
    apply D1. apply g_index; auto.
  - vstep. keep D. destruct D0 as (l & -> & D). outs. vstep. vstep. call. keep D0. read (TTok LParen :: us ++ TTok RParen :: us0). split; auto.
    intros vs Hv. replace (vs ++ TTok LParen :: us ++ TTok RParen :: us0) with ((vs ++ TTok LParen :: us ++ [TTok RParen]) ++ us0) by list_eq.
    apply D1. apply g_call; auto.
  - vstep. call. keep D. read (TTok PlusPlus :: us). split; auto. intros vs Hv. replace (vs ++ TTok PlusPlus :: us) with ((vs ++ [TTok PlusPlus]) ++ us) by list_eq.
    apply D0. apply (g_postfix S vs a PlusPlus); cbn; auto.
  - vstep. call. keep D. read (TTok MinusMinus :: us). split; auto. intros vs Hv. replace (vs ++ TTok MinusMinus :: us) with ((vs ++ [TTok MinusMinus]) ++ us) by list_eq.
    apply D0. apply (g_postfix S vs a MinusMinus); cbn; auto.
Qed.
Lemma s_args d ts S fl : typedefs_outside d ts -> V (claim d NArgs ts S fl) (parse_args (parse f) (mkpst ts S fl)).
Proof.
  intros O. unfold parse_args. vstep. destruct (ctype_eqb _ _).
  - vstep. read (@nil token). split; auto. exists []. split; [reflexivity|constructor].
  - vstep. call. keep D. destruct D0 as (l & -> & D). read us. split; auto. exists l. split; [reflexivity|]. apply g_args. exact D.
Qed.
Lemma s_args_tail d acc ts S fl : typedefs_outside d ts -> V (claim d (NArgsTail acc) ts S fl) (parse_args_tail (parse f) acc (mkpst ts S fl)).
Proof.
  intros O. unfold parse_args_tail. vstep. keep D. destruct D0 as (b & -> & D). outs. vstep. destruct (ctype_eqb (ttype t) Comma) eqn:E.
  - apply ctype_eqb_spec, ttype_tok in E; try discriminate. subst t. outs. vstep. call. keep D0. destruct D1 as (l & -> & D1).
    read (us ++ TTok Comma :: us0). split; auto. exists (b :: l). split; [rewrite <- app_assoc; reflexivity|]. apply g_arg_more; auto.
  - vstep. read us. split; auto. exists [b]. split; [reflexivity|]. apply g_arg. exact D.
Qed.
Lemma s_unary d ts S fl : typedefs_outside d ts -> V (claim d NUnary ts S fl) (parse_unary (parse f) (mkpst ts S fl)).
Proof.
  intros O. unfold parse_unary. vstep. destruct (ttype t) eqn:E; vstep; call; keep D; read us; split; auto; apply g_unary; auto.
Qed.
Lemma outside_tail d t r : typedefs_outside d (t :: r) -> exists d', typedefs_outside d' r.
Proof. destruct t as [c| | | |]; cbn; eauto. destruct c; eauto. intros [_ H]. eauto. Qed.
Lemma s_preinc d ts S fl : typedefs_outside d ts -> V (claim d NPreInc ts S fl) (parse_preinc (parse f) (mkpst ts S fl)).
Proof.
  intros O. unfold parse_preinc. vstep. destruct (outside_tail _ _ _ O) as (d' & O'). vstep. keep D.
  destruct (ttype t) eqn:E; try (vstep; fail); apply ttype_tok in E; try discriminate; subst t; vstep.
  - read (TTok PlusPlus :: us). split; auto. apply (g_prefix S PlusPlus); cbn; auto.
  - read (TTok MinusMinus :: us). split; auto. apply (g_prefix S MinusMinus); cbn; auto.
Qed.
Lemma s_unary_op d ts S fl : typedefs_outside d ts -> V (claim d NUnaryOp ts S fl) (parse_unary_op (parse f) (mkpst ts S fl)).
Proof.
  intros O. unfold parse_unary_op. vstep. destruct (outside_tail _ _ _ O) as (d' & O'). vstep. keep D. destruct D0 as (b & -> & D).
  destruct (ttype t) eqn:E; try (vstep; fail); apply ttype_tok in E; try discriminate; subst t; vstep;
  lazymatch goal with |- claim _ _ (TTok ?c :: _) _ _ _ _ _ _ => read (TTok c :: us); split; auto; apply (g_unary_op S c); cbn; auto 10 end.
Qed.
Lemma s_sizeof d ts S fl : typedefs_outside d ts -> V (claim d NSizeof ts S fl) (parse_sizeof (parse f) (mkpst ts S fl)).
Proof.
  intros O. unfold parse_sizeof. vstep. vstep. intros [a|] r' S' fl' C.
  - destruct C as (us & -> & D). cbn [derived] in D. keep D. vstep. read (TTok KwSizeof :: us). split; auto. apply g_sizeof. exact D0.
  - destruct (C Logic.I) as [-> ->]. vstep. vstep. destruct D as (D & -> & ->). unfold consume. vstep.
    destruct (ctype_eqb (ttype t) RParen) eqn:E; [|vstep]. apply ctype_eqb_spec, ttype_tok in E; try discriminate. subst t. outs. vstep.
    read (TTok KwSizeof :: TTok LParen :: us ++ [TTok RParen]). split; auto. apply g_sizeof_type. exact D.
Qed.
Lemma s_cast d stack ts S fl : typedefs_outside d ts -> V (claim d (NCast stack) ts S fl) (parse_cast (parse f) stack (mkpst ts S fl)).
Proof.
  assert (E : forall ts, typedefs_outside d ts -> V (claim d (NCast stack) ts S fl) (cast_end (parse f) stack (mkpst ts S fl))).
  { clear ts. intros ts O. unfold cast_end. vstep. keep D. vstep. read us. split; auto. exists a. split; [reflexivity|]. apply g_uncast. exact D0. }
  intros O. unfold parse_cast. vstep. destruct (ctype_eqb (ttype t) LParen) eqn:K; cbn [negb]; [|apply E; exact O].
  apply ctype_eqb_spec, ttype_tok in K; try discriminate. subst t. pose proof O as O'. outs. vstep. intros [a|] r' S' fl' C.
  - destruct C as (us & -> & D). cbn [derived] in D. destruct D as (D & -> & ->). unfold consume. vstep.
    destruct (ctype_eqb (ttype t) RParen) eqn:K; [|vstep]. apply ctype_eqb_spec, ttype_tok in K; try discriminate. subst t. outs. vstep. call. keep D0.
    destruct D1 as (b & -> & D1). read (TTok LParen :: us ++ TTok RParen :: us0). split; auto. eexists. split; [reflexivity|]. apply g_cast; auto.
  - destruct (C Logic.I) as [-> ->]. st. apply E. exact O'.
Qed.
Lemma s_level d l ts S fl : typedefs_outside d ts -> V (claim d (NLevel l) ts S fl) (parse_level (parse f) l (mkpst ts S fl)).
Proof.
  intros O. unfold parse_level. 
  assert (K : forall us a, G (operand_of (lev l)) S us [a] S -> G (Bin (lev l)) S us [a] S) by (intros; apply g_operand; [apply lev_range|auto]).
  destruct l; cbn [operand lev operand_of] in *; vstep; keep D; try destruct D0 as (b & -> & D0); outs; vstep; call; keep D;
  read (us ++ us0); split; auto.
Qed.
Lemma s_tail d l a ts S fl : typedefs_outside d ts -> V (claim d (NTail l a) ts S fl) (parse_tail (parse f) l a (mkpst ts S fl)).
Proof.
  intros O. unfold parse_tail. vstep. destruct (level_op l (ttype t)) as [ty|] eqn:E.
  - assert (t = TTok (ttype t)) as Et by (apply op_token; eauto). destruct t as [c| | | |]; try discriminate Et. clear Et. cbn [ttype] in E. apply level_op_in in E.
    assert (O' : typedefs_outside d r) by (clear -E O; cbn in E; op_cases; exact O).
    assert (K : forall vs us b, G (Bin (lev l)) S vs [a] S -> G (operand_of (lev l)) S us [b] S -> G (Bin (lev l)) S (vs ++ TTok c :: us) [node ty [a; b]] S)
      by (intros; eapply g_binary; eauto).
    assert (Z : V (claim d (NTail l a) (TTok c :: r) S fl) (ptry b, st <- parse f (operand l) (mkpst r S fl); parse f (NTail l (new_ast ty [a; b])) st)).
    { clear E. destruct l; cbn [operand lev operand_of] in *; vstep; keep D; try destruct D0 as (b & -> & D0); outs; vstep; call; keep D; read (TTok c :: us ++ us0); split; auto;
      intros vs Hv; replace (vs ++ TTok c :: us ++ us0) with ((vs ++ TTok c :: us) ++ us0) by list_eq; auto. }
    exact Z.
  - vstep. read (@nil token). split; auto. intros vs Hv. rewrite app_nil_r. exact Hv.
Qed.
Lemma s_cond d ts S fl : typedefs_outside d ts -> V (claim d NCond ts S fl) (parse_cond (parse f) (mkpst ts S fl)).
Proof.
  intros O. unfold parse_cond, parse_expr. vstep. keep D. vstep. destruct (ctype_eqb (ttype t) Question) eqn:E; cbn [negb].
  - apply ctype_eqb_spec, ttype_tok in E; try discriminate. subst t. outs. vstep. keep D. destruct D1 as (b & -> & D1). outs. vstep. vstep. keep D. vstep.
    read (us ++ TTok Question :: us0 ++ TTok Colon :: us1). split; auto. apply g_cond; auto.
  - vstep. read us. split; auto. apply g_uncond. exact D0.
Qed.
Lemma s_assign d stack ts S fl : typedefs_outside d ts -> V (claim d (NAssign stack) ts S fl) (parse_assign (parse f) stack (mkpst ts S fl)).
Proof.
  assert (E : forall ts, typedefs_outside d ts -> V (claim d (NAssign stack) ts S fl) (assign_end (parse f) stack (mkpst ts S fl))).
  { clear ts. intros ts O. unfold assign_end. vstep. keep D. vstep. read us. split; auto. exists a. split; [reflexivity|]. apply g_unassign. exact D0. }
  intros O. unfold parse_assign. st. vstep. intros [a|] r S' fl' C.
  - destruct C as (us & -> & D). cbn [derived] in D. destruct D as (D & -> & ->). pose proof O as O'. apply (G_out _ _ _ _ _ D) in O. vstep.
    destruct (assign_op (ttype t)) as [ty|] eqn:K; [|st; apply E; exact O'].
    assert (t = TTok (ttype t)) as Et by (apply op_token; eauto). destruct t as [c| | | |]; try discriminate Et. clear Et. cbn [ttype] in K. apply assign_op_in in K.
    assert (Or : typedefs_outside d r0) by (clear -K O; cbn in K; op_cases; exact O).
    vstep. call. keep D0. destruct D1 as (b & -> & D1). read (us ++ TTok c :: us0). split; auto. eexists. split; [reflexivity|]. eapply g_assign; eauto.
  - destruct (C Logic.I) as [-> ->]. st. apply E. exact O.
Qed.
End Sound.
