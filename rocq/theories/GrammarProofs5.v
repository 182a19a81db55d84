(** Whatever the parser accepts is a phrase of the grammar: definitions and rules. *)
From Verif Require Import Base LiteralModel LexerModel AstModel ParserModel ParserProofs TypeProofs Grammar GrammarProofs GrammarProofs2 GrammarProofs3 GrammarProofs4.
Open Scope nat_scope.

Lemma G_out N S ts l S' : G N S ts l S' -> forall d r, typedefs_outside d (ts ++ r) -> typedefs_outside d r.
Proof.
  induction 1; intros d r' O; repeat rewrite <- ?app_assoc, <- ?app_comm_cons in O; cbn [app] in O; op_cases; cbn [typedefs_outside pred] in O; eauto;
  try (repeat match goal with
       | IH : forall d r, typedefs_outside d (?ts ++ r) -> _, O : typedefs_outside _ (?ts ++ _) |- _ => apply IH in O; cbn [typedefs_outside pred] in O
       end; auto; fail).
  all: try (apply IHG; apply O). all: try apply O.
  apply IHG. induction n as [|n IH]; [exact O|]. apply IH. exact O.
Qed.
Lemma G_same N S ts l S' : G N S ts l S' -> match N with
  | Declor abs td | Direct abs td => abs = true \/ td = false -> S' = S
  | InitDeclor td | InitDeclors td | Decl td => td = false -> S' = S
  | Items | External | Unit => True
  | _ => S' = S end.
Proof.
  induction 1; auto; intros E; subst; auto.
  - destruct E as [E|E]; [discriminate|]. subst td. reflexivity.
  - transitivity S'; auto.
Qed.

(** [d]: the number of open parentheses; [inside]: nonterminals met only between parentheses *)
Definition inside (N : nt) : Prop := match N with NParamList _ | NParamDecl => True | _ => False end.
(** nonterminals whose failure leaves the type names unchanged *)
Definition quiet (N : nt) (fl : bool) : Prop :=
  match N with
  | NAssign _ | NCond | NLevel _ | NTail _ _ | NCast _ | NUnary | NPreInc | NUnaryOp | NSizeof | NPostfix | NPostfixTail _ | NArgs | NArgsTail _ | NPrimary
  | NTypeName | NDeclSpecs _ _ | NSpecQual _ | NTypeSpec | NStruct | NStructDeclList _ | NStructDecl | NEnum | NEnumorList _ | NEnumor
  | NSuffixes _ | NParamList _ | NParamDecl => True
  | NStructDeclorList _ => fl = false
  | NDeclor abs | NDirect abs => abs = true \/ fl = false
  | _ => False
  end.
Definition followed (o : bool) (ts : list token) : Prop := o = false -> match ts with [] => False | t :: _ => ttype t = KwElse end.
Definition derived (d : nat) (N : nt) (S : list name) (fl : bool) (us : list token) (a : ast) (ts' : list token) (S' : list name) (fl' : bool) : Prop :=
  match N with
  | NPrimary => G Primary S us [a] S /\ S' = S /\ fl' = fl
  | NPostfix => G Postfix S us [a] S /\ S' = S /\ fl' = fl
  | NPostfixTail b => (forall vs, G Postfix S vs [b] S -> G Postfix S (vs ++ us) [a] S) /\ S' = S /\ fl' = fl
  | NUnary | NPreInc | NUnaryOp | NSizeof => G Unary S us [a] S /\ S' = S /\ fl' = fl
  | NCast stack => (exists b, a = pop_stack stack b /\ G Cast S us [b] S) /\ S' = S /\ fl' = fl
  | NLevel l => G (Bin (lev l)) S us [a] S /\ S' = S /\ fl' = fl
  | NTail l b => (forall vs, G (Bin (lev l)) S vs [b] S -> G (Bin (lev l)) S (vs ++ us) [a] S) /\ S' = S /\ fl' = fl
  | NCond => G Cond S us [a] S /\ S' = S /\ fl' = fl
  | NAssign stack => (exists b, a = pop_stack stack b /\ G Assign S us [b] S) /\ S' = S /\ fl' = fl
  | NArgs => (exists l, a = node AST_ARG_LIST l /\ G Args S us l S) /\ S' = S /\ fl' = fl
  | NArgsTail acc => (exists l, a = node AST_ARG_LIST (acc ++ l) /\ G ArgList S us l S) /\ S' = S /\ fl' = fl
  | NTypeName => (match ts' with TTok RParen :: _ => G TypeName S us [a] S | _ => True end) /\ S' = S /\ fl' = fl
  | NSpecQual acc => (exists l, a = node AST_SPEC_QUAL_LIST (acc ++ l) /\ (G SpecQual S us l S \/ us = [] /\ l = [] /\ acc <> [])) /\
      match ts' with [] => True | t :: _ => ~ type_first S t end /\ S' = S /\ fl' = false
  | NDeclSpecs acc b => (exists l, a = node AST_DECL_SPECS (acc ++ l) /\ (G DeclSpecs S us l S \/ us = [] /\ l = [] /\ acc <> []) /\
      fl' = (b || is_typedef l) /\ (d <> 0 -> is_typedef l = false)) /\ no_specifier S ts' /\ S' = S
  | NTypeSpec | NStruct | NEnum => G TypeSpec S us [a] S /\ S' = S /\ fl' = fl
  | NStructDecl => G StructDecl S us [a] S /\ S' = S /\ fl' = fl
  | NStructDeclList acc => (exists l, a = node AST_STRUCT_DECL_LIST (acc ++ l) /\ G StructDecls S us l S) /\ S' = S /\ fl' = fl
  | NStructDeclorList acc => fl = false -> (exists l, a = node AST_STRUCT_DECLOR_LIST (acc ++ l) /\ G StructDeclors S us l S) /\ S' = S /\ fl' = fl
  | NEnumorList acc => (exists l, a = node AST_ENUMOR_LIST (acc ++ l) /\ G Enumors S us l S) /\ S' = S /\ fl' = fl
  | NEnumor => G Enumor S us [a] S /\ S' = S /\ fl' = fl
  | NDeclor abs => (exists x k, a = declarator_tree x k /\ G (Declor abs fl) S us (x :: k) S') /\ (abs = true -> match us ++ ts' with TIdent _ :: _ => False | _ => True end) /\ fl' = fl
  | NDirect abs => (exists x k, a = declarator_tree x k /\ G (Direct abs fl) S us (x :: k) S') /\ (abs = true -> match us ++ ts' with TIdent _ :: _ => False | _ => True end) /\ fl' = fl
  | NSuffixes acc => (exists l, a = node AST_INIT_LIST (acc ++ l) /\ G Suffixes S us l S) /\ S' = S /\ fl' = fl
  | NParamList acc => (exists l, a = node AST_PARAM_LIST (acc ++ l) /\ G Params S us l S) /\ S' = S /\ fl' = fl
  | NParamDecl => G Param S us [a] S /\ S' = S /\ fl' = fl
  | NInit => G Init S us [a] S /\ S' = S /\ fl' = fl
  | NInitList acc => (exists l, a = node AST_INIT_LIST (acc ++ l) /\ G Inits S us l S) /\ S' = S /\ fl' = fl
  | NInitDeclor => G (InitDeclor fl) S us [a] S' /\ fl' = fl
  | NInitDeclorList acc => (exists l, a = node AST_INIT_DECLOR_LIST (acc ++ l) /\ G (InitDeclors fl) S us l S') /\ fl' = fl
  | NDecl => (exists td, G (Decl td) S us [a] S' /\ (d <> 0 -> td = false)) /\ fl' = fl
  | NStmt | NCase | NDefault | NContinue | NBreak | NReturn | NIf | NSwitch | NWhile | NFor =>
      (forall o, followed o ts' -> G (Stmt o) S us [a] S) /\ S' = S /\ fl' = fl
  | NExprStmt => G ExprStmt S us [a] S /\ S' = S /\ fl' = fl
  | NCompound => G Compound S us [a] S /\ S' = S /\ fl' = fl
  | NItems acc => (exists vs l, us = vs ++ [TTok RBrace] /\ a = node AST_CMPD_STMT (acc ++ l) /\ G Items S vs l S') /\ fl' = fl
  | NFuncDef => G External S us [a] S' /\ fl' = fl
  | NTransUnit acc => (exists l, a = node AST_TRAS_UNIT (acc ++ l) /\ G Unit S us l S') /\ match ts' with TTok CtEOF :: _ => True | _ => False end /\ fl' = fl
  end.
Definition claim (d : nat) (N : nt) (ts : list token) (S : list name) (fl : bool) (o : option ast) (ts' : list token) (S' : list name) (fl' : bool) : Prop :=
  match o with
  | None => quiet N fl -> S' = S /\ fl' = fl
  | Some a => exists us, ts = us ++ ts' /\ derived d N S fl us a ts' S' fl'
  end.
Definition sound (f : nat) : Prop := forall d N ts S fl o ts' S' fl', typedefs_outside d ts -> (inside N -> d <> 0) ->
  parse f N (mkpst ts S fl) = Ok (o, mkpst ts' S' fl') -> claim d N ts S fl o ts' S' fl'.

(** partial correctness of parser actions *)
Definition post_cond := option ast -> list token -> list name -> bool -> Prop.
Definition V (Q : post_cond) (m : pres) : Prop := forall o ts S fl, m = Ok (o, mkpst ts S fl) -> Q o ts S fl.
Lemma V_pok (Q : post_cond) a ts S fl : Q (Some a) ts S fl -> V Q (pok a (mkpst ts S fl)).
Proof. intros H o ts' S' fl' E. unfold pok in E. injection E as <- <- <- <-. exact H. Qed.
Lemma V_perr (Q : post_cond) ts S fl : Q None ts S fl -> V Q (perr (mkpst ts S fl)).
Proof. intros H o ts' S' fl' E. unfold perr in E. injection E as <- <- <- <-. exact H. Qed.
Lemma V_peek (Q : post_cond) ts S fl k : (forall t r, ts = t :: r -> V Q (k t)) -> V Q (bind (peek (mkpst ts S fl)) k).
Proof. intros H. unfold peek. cbn [toks]. destruct ts as [|t r]; [intros o ? ? ? E; discriminate E|]. cbn [bind]. eapply H; reflexivity. Qed.
Lemma V_consume (Q : post_cond) c ts S fl k : c <> CtIdent -> c <> CtInt -> c <> CtChar -> c <> CtString ->
  (forall r, ts = TTok c :: r -> V Q (k (mkpst r S fl))) -> Q None ts S fl -> V Q (consume c (mkpst ts S fl) k).
Proof.
  intros N1 N2 N3 N4 H HN. unfold consume. apply V_peek. intros t r ->. destruct (ctype_eqb (ttype t) c) eqn:E; [|apply V_perr; exact HN].
  apply ctype_eqb_spec in E. assert (t = TTok c) as -> by (destruct t; cbn in E; congruence). apply (H r eq_refl).
Qed.
Lemma V_rec f (T : sound f) (Q : post_cond) d N ts S fl k : typedefs_outside d ts -> (inside N -> d <> 0) ->
  (forall o ts' S' fl', claim d N ts S fl o ts' S' fl' -> V Q (k (o, mkpst ts' S' fl'))) -> V Q (bind (parse f N (mkpst ts S fl)) k).
Proof.
  intros O I H o ts' S' fl' E. destruct (parse f N (mkpst ts S fl)) as [[o1 [ts1 S1 fl1]]| | | |] eqn:P; try discriminate E. cbn [bind] in E.
  exact (H o1 ts1 S1 fl1 (T d N ts S fl o1 ts1 S1 fl1 O I P) _ _ _ _ E).
Qed.
Lemma V_try f (T : sound f) (Q : post_cond) d N ts S fl k : typedefs_outside d ts -> (inside N -> d <> 0) ->
  (forall a us ts' S' fl', ts = us ++ ts' -> derived d N S fl us a ts' S' fl' -> V Q (k a (mkpst ts' S' fl'))) ->
  (forall ts' S' fl', (quiet N fl -> S' = S /\ fl' = fl) -> Q None ts' S' fl') -> V Q (pbind (parse f N (mkpst ts S fl)) k).
Proof.
  intros O I H HN. unfold pbind. apply V_rec with (1 := T) (d := d); auto. intros [a|] ts' S' fl' C.
  - destruct C as (us & E & C). eapply H; eauto.
  - apply V_perr. apply HN. exact C.
Qed.
Lemma V_call f (T : sound f) (Q : post_cond) d N ts S fl : typedefs_outside d ts -> (inside N -> d <> 0) ->
  (forall o ts' S' fl', claim d N ts S fl o ts' S' fl' -> Q o ts' S' fl') -> V Q (parse f N (mkpst ts S fl)).
Proof. intros O I H o ts' S' fl' E. apply H. exact (T d N ts S fl o ts' S' fl' O I E). Qed.
