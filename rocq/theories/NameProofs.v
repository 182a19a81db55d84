(** Proofs for C29: the names of a program begin with a letter or an underscore *)
From Verif Require Import Base LiteralModel LexerModel AstModel ParserModel FrontModel ImmcModel ImmcgenModel DtypeModel SymtabModel SrtModel ResolverModel TypeSpec ElabSpec ElabProofs ElabProofs2 ElabProofs5 ResolverSpec ResolverProofs LabelSpec LabelProofs LabelProofs2 LabelProofs3.
Local Open Scope Z_scope.

(** * Lexer *)
Definition okt (t : token) : Prop := match t with TIdent n => dotless n | _ => True end.
Lemma read_token_ok f cs t cs' : read_token f cs = Ok (t, cs') -> okt t.
Proof.
  unfold read_token. intros H. apply bind_ok in H as (nd & N & H). destruct nd.
  - unfold read_keyword_or_identifier in H. apply bind_ok in H as (r & _ & H). apply bind_ok in H as (k & _ & H). destruct k; injection H as <- _; [exact I |].
    intros c x E. injection E as <- _. intros E. rewrite E in N. vm_compute in N. discriminate N.
  - apply bind_ok in H as (d & _ & H). destruct d; [| destruct (_ =? 39); [| destruct (_ =? 34)]].
    + unfold read_integer_constant in H. repeat (let x := fresh "x" in apply bind_ok in H as (x & _ & H); try destruct x); try discriminate H;
        repeat match type of H with context [match ?x with _ => _ end] => destruct x; try discriminate H | context [if ?x then _ else _] => destruct x; try discriminate H end;
        repeat (let x := fresh "x" in apply bind_ok in H as (x & _ & H); try destruct x); try discriminate H; injection H as <- _; exact I.
    + unfold read_character_constant in H. repeat (let x := fresh "x" in apply bind_ok in H as (x & _ & H); try destruct x); try discriminate H;
        repeat match type of H with context [match ?x with _ => _ end] => destruct x; try discriminate H | context [if ?x then _ else _] => destruct x; try discriminate H end;
        repeat (let x := fresh "x" in apply bind_ok in H as (x & _ & H); try destruct x); try discriminate H; injection H as <- _; exact I.
    + unfold read_string_literal in H. apply bind_ok in H as (r & _ & H). injection H as <- _. exact I.
    + unfold read_punctuator in H. destruct (_ =? EOF); [injection H as <- _; exact I |]. cbv zeta in H. apply bind_ok in H as (o & _ & H). destruct o as [[y n] |]; [injection H as <- _; exact I | discriminate H].
Qed.
Lemma tokens_ok : forall f cs ts, tokens_loop f cs = Ok ts -> Forall okt ts.
Proof.
  induction f as [| f IH]; intros cs ts H; [discriminate |]. cbn [tokens_loop] in H. apply bind_ok in H as ([t r] & R & H). apply read_token_ok in R. cbn [fst snd] in H.
  assert (X : ts = [t] \/ exists us, ts = t :: us /\ Forall okt us).
  { destruct t as [[] | | | |]; try (injection H as <-; now left); apply bind_ok in H as (cs' & _ & H); apply bind_ok in H as (us & M & H); injection H as <-; right; eauto. }
  destruct X as [-> | (us & -> & F)]; auto.
Qed.
Theorem lexed_ok src ts : lex_source src = Ok ts -> Forall okt ts.
Proof. unfold lex_source, lex. intros H. apply bind_ok in H as (cs & _ & H). apply bind_ok in H as (c & _ & H). eapply tokens_ok, H. Qed.

(** * Parser *)
Inductive oka : ast -> Prop := oka_node t p cs : (forall n, p = PName n -> dotless n) -> Forall oka cs -> oka (Ast t p cs).
Definition oks (st : pst) : Prop := Forall okt (toks st).
Definition okn (n : nt) : Prop :=
  match n with
  | NTransUnit l | NDeclSpecs l _ | NSpecQual l | NStructDeclList l | NStructDeclorList l | NEnumorList l | NInitDeclorList l | NSuffixes l | NParamList l | NInitList l | NItems l
  | NAssign l | NCast l | NArgsTail l => Forall oka l
  | NTail _ a | NPostfixTail a => oka a
  | _ => True
  end.
Definition good (r : pres) : Prop := forall o st, r = Ok (o, st) -> oks st /\ forall a, o = Some a -> oka a.
Lemma good_ok a st : oka a -> oks st -> good (pok a st).
Proof. intros A S o st' H. injection H as <- <-. split; [exact S | intros ? [= <-]; exact A]. Qed.
Lemma good_err st : oks st -> good (perr st).
Proof. intros S o st' H. injection H as <- <-. split; [exact S | discriminate]. Qed.
Lemma good_bind m k : good m -> (forall a st, oka a -> oks st -> good (k a st)) -> good (pbind m k).
Proof. intros M K o st H. unfold pbind in H. apply bind_ok in H as ([[a |] st'] & E & H); destruct (M _ _ E) as [S A]; [exact (K _ _ (A _ eq_refl) S _ _ H) | now apply good_err in H]. Qed.
Lemma good_do m (k : option ast * pst -> pres) : good m -> (forall a st, oka a -> oks st -> good (k (Some a, st))) -> (forall st, oks st -> good (k (None, st))) -> good (do r <- m; k r).
Proof. intros M K1 K2 o st H. apply bind_ok in H as ([[a |] st'] & E & H); destruct (M _ _ E) as [S A]; [exact (K1 _ _ (A _ eq_refl) S _ _ H) | exact (K2 _ S _ _ H)]. Qed.
Lemma good_res {A} (m : res A) k : (forall a, m = Ok a -> good (k a)) -> good (do r <- m; k r).
Proof. intros K o st H. apply bind_ok in H as (a & E & H). exact (K a E _ _ H). Qed.
Lemma good_peek st k : oks st -> (forall t, okt t -> good (k t)) -> good (do t <- peek st; k t).
Proof. intros S K o st' H. apply bind_ok in H as (t & E & H). unfold peek in E. destruct (toks st) as [| t' r] eqn:T; [discriminate |]. injection E as ->. unfold oks in S. rewrite T in S. exact (K _ (Forall_inv S) _ _ H). Qed.
Lemma good_stop r : (forall x, r <> Ok x) -> good r.
Proof. intros H o st E. now destruct (H (o, st)). Qed.
Lemma oks_advance st : oks st -> oks (ParserModel.advance st).
Proof. unfold oks, ParserModel.advance. destruct st as [[| t r] n f]; cbn; [auto |]. intros H. now inversion H. Qed.
Lemma oks_flag st b : oks st -> oks (with_flag st b). Proof. auto. Qed.
Lemma oks_names st b : oks st -> oks (with_names st b). Proof. auto. Qed.
Lemma oks_toks st st' : oks st' -> oks (with_toks st (toks st')). Proof. auto. Qed.
Lemma good_consume t st k : oks st -> (forall st, oks st -> good (k st)) -> good (consume t st k).
Proof. intros S K. unfold consume. apply good_peek; [exact S |]. intros tok _. destruct (ctype_eqb _ _); [now apply K, oks_advance | now apply good_err]. Qed.
Lemma oka_new t cs : Forall oka cs -> oka (new_ast t cs).
Proof. constructor; [discriminate | assumption]. Qed.
Lemma oka_ident t n : dotless n -> oka (new_identifier_ast t n).
Proof. constructor; [now intros m [= <-] | constructor]. Qed.
Lemma oka_children a : oka a -> Forall oka (ast_children a).
Proof. now destruct 1. Qed.
Lemma oka_push a b : oka a -> oka b -> oka (ast_push a b).
Proof. destruct 1 as [t p cs P F]. intros B. unfold ast_push. constructor; [exact P |]. apply Forall_app. auto. Qed.
Lemma oka_pop : forall l a, Forall oka l -> oka a -> oka (pop_stack l a).
Proof. induction l as [| x l IH]; intros a F A; [exact A |]. inversion F; subst. cbn. apply IH; [assumption |]. now apply oka_push. Qed.
Lemma oka_attach : forall p x, oka p -> oka x -> oka (pointer_attach p x).
Proof.
  fix F 1. intros [t pl [| c r]] x P X; inversion P; subst; cbn; constructor; auto. inversion H3; subst. constructor; auto.
Qed.
Lemma oka_replace ty f (Hf : forall x, oka x -> oka (f x)) : forall d d', oka d -> replace_terminal ty f d = Ok d' -> oka d'.
Proof.
  fix F 1. intros [t pl [| c r]] d' P H; cbn in H; [discriminate |]. inversion P as [? ? ? P1 P2]; subst. inversion P2; subst.
  destruct (asttype_eqb _ _); [injection H as <-; constructor; auto |]. destruct (replace_terminal ty f c) eqn:E; try discriminate H. cbn in H. injection H as <-. constructor; [exact P1 |]. constructor; [| assumption]. eapply F; [| exact E]; assumption.
Qed.
Lemma oka_find ty : forall d x, oka d -> find_terminal ty d = Ok x -> oka x.
Proof.
  fix F 1. intros [t pl [| c r]] x P H; cbn in H; [discriminate |]. inversion P as [? ? ? P1 P2]; subst. inversion P2; subst.
  destruct (asttype_eqb _ _); [injection H as <-; assumption |]. eapply F; [| exact H]; assumption.
Qed.
Lemma oka_chain l x : Forall oka l -> oka x -> oka (chain l x).
Proof. intros F X. induction F as [| y l Y _ IH]; [exact X |]. cbn. destruct Y as [t p cs P Q]. constructor; [exact P |]. cbn. auto. Qed.
Lemma pointer_ok st p st' : oks st -> parse_pointer st = Ok (p, st') -> oka p /\ oks st'.
Proof.
  assert (L : forall ts a b us, Forall okt ts -> oka a -> pointer_loop ts a = Ok (b, us) -> oka b /\ Forall okt us).
  { induction ts as [| t ts IH]; intros a b us F A H; cbn in H; [discriminate |]. destruct (ctype_eqb _ _); [| injection H as <- <-; auto]. inversion F; subst. eapply IH; [assumption | | exact H]. apply oka_new. auto. }
  unfold parse_pointer. intros S H. apply bind_ok in H as ([a us] & E & H). injection H as <- <-. apply L in E as [A U]; [split; [exact A | exact U] | | apply oka_new; constructor].
  unfold oks in S. destruct (toks st); [constructor | now inversion S].
Qed.
Ltac oks := repeat first [assumption | apply oks_flag | apply oks_names | apply oks_advance | apply oks_toks].
Ltac okas := repeat first [assumption | apply oka_new | apply oka_pop | apply oka_ident | apply oka_attach | apply Forall_nil | apply Forall_cons | apply Forall_app; split | apply oka_children | apply oka_chain | exact I].
Section Bodies.
Variable rec : nt -> pst -> pres.
Hypothesis R : forall n st, okn n -> oks st -> good (rec n st).
Ltac gd := repeat match goal with
  | |- good (pok _ _) => apply good_ok; [okas | oks]
  | |- good (perr _) => apply good_err; oks
  | |- good (rec _ _) => apply R; [cbn [okn]; okas | oks]
  | |- good (pbind _ _) => apply good_bind; [| intros]
  | |- good (consume _ _ _) => apply good_consume; [oks | intros]
  | |- good (bind (peek _) _) => apply good_peek; [oks | intros]
  | |- good (bind (rec _ _) _) => apply good_do; [| intros ..]
  | |- good (if ?x then _ else _) => destruct x eqn:?
  | |- good (match ?x with _ => _ end) => destruct x eqn:?
  | |- good (let _ := _ in _) => cbv zeta
  | |- good Fatal => apply good_stop; discriminate
  | |- good UB => apply good_stop; discriminate
  end.
Lemma tagged_good ty tagty b st : okn b -> oks st -> good (parse_tagged rec ty tagty b st).
Proof.
  intros B S. unfold parse_tagged. apply good_peek; [exact S |]. intros t T.
  assert (X : exists tag st', (match t with TIdent n => ([new_identifier_ast tagty n], ParserModel.advance st) | _ => ([], st) end) = (tag, st') /\ Forall oka tag /\ oks st').
  { destruct t; do 2 eexists; (split; [reflexivity |]); split; okas; oks. }
  destruct X as (tag & st' & -> & F & S'). gd; subst; okas.
Qed.
Lemma end_good abs e x st : (forall a, e = Some a -> oka a) -> oka x -> oks st -> good (direct_end rec abs e x st).
Proof.
  intros E X S. unfold direct_end. apply good_bind; [apply R; [constructor | exact S] |]. intros l st' L S'. destruct e as [e |]; [| gd]. apply good_res. intros a A. apply good_ok; [| exact S'].
  eapply oka_replace; [| exact (E _ eq_refl) | exact A]. intros y _. cbn. okas.
Qed.
Lemma operand_okn l : okn (operand l).
Proof. destruct l; cbn; auto. Qed.
Lemma body_good n st : okn n -> oks st -> good (body rec n st).
Proof.
  intros N S. destruct n; cbn [body okn] in *;
    unfold parse_trans_unit, parse_func_def, parse_decl, parse_type_name, parse_decl_specs, parse_spec_qual, parse_type_spec, parse_struct, parse_enum, parse_struct_decl_list, parse_struct_decl, parse_struct_declor_list,
      parse_enumor_list, parse_enumor, parse_init_declor_list, parse_init_declor, parse_suffixes, parse_param_list, parse_param_decl, parse_init, parse_init_list, parse_stmt, parse_case, parse_default, parse_compound, parse_items, parse_continue,
      parse_break, parse_return, parse_expr_stmt, parse_if, parse_switch, parse_while, parse_for, parse_assign, parse_cond, parse_level, parse_tail, parse_cast, parse_unary, parse_preinc, parse_unary_op, parse_sizeof,
      parse_postfix, parse_postfix_tail, parse_args, parse_args_tail, parse_primary, for_body, member_name, assign_end, cast_end, parse_expr, parse_constant_expr.
  all: try solve [gd].
  - apply good_res. intros m _. destruct m as [b |]; [| gd]. apply good_bind; [destruct b; gd |]. intros. gd.
  - apply good_consume; [oks |]. intros. apply tagged_good; [constructor | assumption].
  - apply good_consume; [oks |]. intros. apply tagged_good; [constructor | assumption].
  - unfold parse_declor. apply good_peek; [oks |]. intros t T. destruct (ctype_eqb _ _); [| gd]. apply good_res. intros [p st'] P. apply pointer_ok in P as [P S']; [| exact S].
    apply good_bind; [gd |]. intros d st2 D S2. destruct (asttype_eqb _ _); [gd |]. apply good_res. intros d' D'. apply good_ok; [| exact S2]. eapply oka_replace; [| exact D | exact D']. intros y Y. okas.
  - unfold parse_direct. apply good_peek; [oks |]. intros t T.
    assert (A : good (if abs then direct_end rec abs None (new_ast AST_ABS_DECLOR []) st else perr st)) by (destruct abs; [apply end_good; [discriminate | okas | oks] | gd]).
    destruct t as [c | m | | |]; try exact A.
    + destruct c; try exact A. apply good_bind; [gd |]. intros e st' E S'. destruct abs.
      * destruct (asttype_eqb _ _); [apply end_good; [discriminate | assumption | oks] |]. apply good_consume; [oks |]. intros st2 S2. apply good_res. intros x X. apply end_good; [now intros ? [= <-] | eapply oka_find; eassumption | oks].
      * apply good_consume; [oks |]. intros st2 S2. destruct (asttype_eqb _ _); [apply end_good; [discriminate | assumption | oks] |]. apply good_res. intros x X. apply end_good; [now intros ? [= <-] | eapply oka_find; eassumption | oks].
    + destruct abs; [gd |]. cbv zeta. apply end_good; [discriminate | okas; exact T | destruct (tdflag _); oks].
  - apply good_consume; [oks |]. intros st' S'. apply good_do; [gd | |]; [intros a st2 A S2 o st3 H | intros st2 S2 o st3 H]; injection H as <- <-; (split; [oks |]); [now intros ? [= <-] | discriminate].
  - apply good_bind; [apply R; [apply operand_okn | oks] |]. intros. gd.
  - apply good_peek; [oks |]. intros t T. destruct (level_op _ _); [| gd]. apply good_bind; [apply R; [apply operand_okn | oks] |]. intros. gd.
  - apply good_peek; [oks |]. intros t T. destruct t; gd; try (apply oka_node; [intros ? [=] | apply Forall_nil]); try exact T.
Qed.
End Bodies.
Lemma parse_good : forall f n st, okn n -> oks st -> good (parse f n st).
Proof. induction f as [| f IH]; intros n st N S; [apply good_stop; discriminate |]. cbn [parse]. now apply body_good. Qed.
Theorem parsed_ok ts a : Forall okt ts -> parse_tokens ts = Ok a -> oka a.
Proof.
  intros F H. unfold parse_tokens in H. apply bind_ok in H as ([[b |] st] & E & H); [| discriminate H]. injection H as <-. eapply parse_good in E as [_ A]; [exact (A _ eq_refl) | constructor | exact F].
Qed.

(** * Resolver *)
Scheme declarator_alone := Minimality for declarator Sort Prop.
Lemma oka_first t p c cs : oka (Ast t p (c :: cs)) -> oka c.
Proof. inversion 1; subst. now inversion H4. Qed.
Lemma declarator_named : forall E td out base a n d E', declarator E td out base a n d E' -> oka a -> forall m, n = Some m -> dotless m.
Proof.
  apply (declarator_alone (fun E td out base a n d E' => oka a -> forall m, n = Some m -> dotless m)); try discriminate; try (intros; eauto using oka_first; fail).
  intros E td out base p cs n -> _ A m [= <-]. inversion A; subst. auto.
Qed.
Lemma declarators_named E td base ds ss E' : init_declarators E td base ds ss E' -> Forall oka ds ->
  forall n, In n (flat_map (fun x => match x with Srt _ _ _ (d :: _) => declared_name d | _ => [] end) ss) -> dotless n.
Proof.
  induction 1 as [| E td base t p da rest n d0 d E1 syms ss E2 H H0 H1 H2 H3 H4 IH | E td base t p da ia cs0 rest n d0 d E1 syms i E2 ss E3 H H0 H1 H2 H3 H4 H5 IH]; intros F m I; [destruct I | |];
    cbn [flat_map declared_name app] in I; (destruct I as [<- | I]; [eapply declarator_named; [exact H | exact (oka_first _ _ _ _ (Forall_inv F)) | reflexivity] | exact (IH (Forall_inv_tail F) _ I)]).
Qed.
Lemma items_named E items ss E' : unit_items E items ss E' -> Forall oka items -> forall n, In n (file_names (stmt_node SRT_TRAS_UNIT ss)) -> dotless n.
Proof.
  unfold file_names. cbn [srt_children stmt_node].
  induction 1 as [E | E items s cs E' H H0 IH | E a items s E1 cs E' H H0 H1 IH | E a items s E1 cs E' H H0 H1 IH]; intros F n I; [destruct I | ..];
    cbn [flat_map] in I; apply in_app_iff in I as [I | I]; try (exact (IH F _ I)); try (exact (IH (Forall_inv_tail F) _ I)).
  - exfalso. destruct H as [H | H].
    + destruct s as [t d p l]. destruct t; try discriminate H. destruct I.
    + apply string_shape in H as (id & str & k & m & O & ->). destruct I.
  - apply Forall_inv in F. destruct H0 as [E t p ts q specs da tb qb its cs0 base E1 nm ps ret E2 syms1 syms2 syms3 body E3 syms4 E4 D0 D1 D2 D3 D4 D5 D6 B D7 D8]. cbn in I. destruct I as [<- | []].
    eapply declarator_named; [exact D2 | | reflexivity]. inversion F as [? ? ? _ F1]; subst. inversion F1 as [| ? ? _ F2]; subst. now inversion F2.
  - apply Forall_inv in F. destruct H0 as [? t p ts q l td specs base E1' D SP | ? t p ts q l tl ql ds cs1 td specs base E1' ss E2 D SP J]; [destruct I |].
    eapply declarators_named; [exact J | | exact I]. inversion F as [? ? ? _ F1]; subst. inversion F1 as [| ? ? _ F2]; subst. inversion F2 as [| ? ? F3 _]; subst. now inversion F3.
Qed.
(** the names of a source text *)
Theorem source_names src ts a s : lex_source src = Ok ts -> parse_tokens ts = Ok a -> resolve a = Ok s -> plain_names s.
Proof.
  intros L P R. apply lexed_ok in L. apply (parsed_ok _ _ L) in P. apply resolve_sound in R as (ss & E' & -> & U & _). intros n r I ->. eapply (items_named _ _ _ _ U); [exact (oka_children _ P) | exact I | reflexivity | reflexivity].
Qed.
Lemma front_inv src s : front src = Ok s -> exists a, resolve a = Ok s /\ plain_names s.
Proof. unfold front. intros H. apply bind_ok in H as (ts & L & H). apply bind_ok in H as (a & P & H). exists a. split; [exact H | eapply source_names; eassumption]. Qed.
Theorem source_labels src s cs : front src = Ok s -> immcgen s = Ok cs -> NoDup (labels cs) /\ jumps_resolved cs.
Proof. intros F G. apply front_inv in F as (a & R & P). eapply program_labels; eassumption. Qed.
