(** What is written is a phrase of the grammar with the tree written. *)
From Verif Require Import Base LiteralModel LexerModel AstModel DtypeModel ParserModel Grammar GrammarProofs GrammarProofs2 GrammarProofs3 GrammarProofs4 WriteSpec.
Open Scope nat_scope.

(* -------------------------------------------------------------------- types *)
Lemma type_rect' (P : type -> Prop) : (forall b, P (TBasic b)) -> (forall t, P t -> P (TPointer t)) -> (forall n t, P t -> P (TArray n t)) ->
  (forall ps t, Forall (fun p => P (snd p)) ps -> P t -> P (TFunction ps t)) -> (forall t, P t -> P (TParens t)) -> forall t, P t.
Proof.
  intros H1 H2 H3 H4 H5. fix F 1. intros [b|t|n t|ps t|t]; [apply H1|apply H2, F|apply H3, F|apply H4; [|apply F]|apply H5, F].
  induction ps as [|p ps IH]; constructor; [apply F|exact IH].
Qed.
Definition leaf (o : option name) : ast := match o with Some n => Ast AST_IDENT_DECLOR (PName n) [] | None => n0 AST_ABS_DECLOR [] end.
Definition leaf_tokens (o : option name) : list token := match o with Some n => [TIdent n] | None => [] end.
Definition param_tree (p : option name * type) : ast := n0 AST_PARAM_DECL [n0 AST_DECL_SPECS (specifier_trees (basic_of (snd p))); declarator (snd p) (leaf (fst p))].
Definition params_tree (ps : list (option name * type)) : list ast :=
  match ps with [] => [param_tree (None, TBasic BVoid)] | _ => map param_tree ps end.
Fixpoint links (t : type) : list ast :=
  match t with
  | TBasic _ => []
  | TPointer t => n0 AST_PTR_DECLOR [] :: links t
  | TArray n t => n0 AST_ARRAY_DECLOR [Ast AST_INT_EXPR (PInt (number n)) []] :: links t
  | TFunction ps t => n0 AST_FUNC_DECLOR [n0 AST_PARAM_LIST (params_tree ps)] :: links t
  | TParens t => links t
  end.
Lemma declarator_links t x : declarator t x = declarator_tree x (links t).
Proof. induction t as [b|t IH|n t IH|ps t _ IH|t IH] using type_rect'; cbn; try rewrite IH; reflexivity. Qed.
Definition params_tokens (ps : list (option name * type)) : list token :=
  match ps with [] => [TTok KwVoid] | _ => separated (map (fun p => spell (snd p) (leaf_tokens (fst p)) false) ps) end.
Fixpoint around (t : type) (inner : list token) (star : bool) : list token :=
  match t with
  | TBasic b => inner
  | TPointer t => around t (TTok Asterisk :: inner) true
  | TArray n t => around t ((if star then parens inner else inner) ++ [TTok LBracket; TInt (number n); TTok RBracket]) false
  | TFunction ps t => around t ((if star then parens inner else inner) ++ parens (params_tokens ps)) false
  | TParens t => match inner with [] => around t [] false | _ => around t (parens inner) false end
  end.
Lemma spell_around t inner star : spell t inner star = specifiers (basic_of t) ++ around t inner star.
Proof.
  revert inner star. induction t as [b|t IH|n t IH|ps t _ IH|t IH] using type_rect'; intros inner star; cbn; auto. destruct inner; apply IH.
Qed.

Definition bare (td : bool) (S : list name) (inner : list token) (x : ast) (k : list ast) (S' : list name) (star abs : bool) : Prop :=
  if star then (inner <> [] /\ k <> []) /\ G (Declor abs td) S inner (x :: k) S' else G (Direct abs td) S inner (x :: k) S'.
Lemma suffix_more N S ts k S' : G N S ts k S' -> N = Suffixes -> forall us k', G Suffixes S us k' S -> G Suffixes S (ts ++ us) (k ++ k') S.
Proof.
  induction 1; intros E; try discriminate E; intros us' k' U; cbn [app]; auto.
  - repeat rewrite <- ?app_assoc, <- ?app_comm_cons. apply g_array; auto.
  - repeat rewrite <- ?app_assoc, <- ?app_comm_cons. apply g_function; auto.
Qed.
Lemma direct_more S abs td ts x k S' us k' : G (Direct abs td) S ts (x :: k) S' -> G Suffixes S' us k' S' -> (ts = [] -> no_leading_name us) -> G (Direct abs td) S (ts ++ us) (x :: k ++ k') S'.
Proof.
  intros D U L. inversion D; subst.
  - cbn [app]. apply g_name. eapply suffix_more; eauto.
  - apply g_no_name. { eapply suffix_more; eauto. } destruct ts as [|[[]| | | |] [|[]]]; auto. cbn.
    match goal with H : G Suffixes _ [TTok LParen] _ _ |- _ => inversion H; subst end.
    match goal with H : ?a ++ _ :: _ = [] |- _ => destruct a; discriminate H end.
  - cbn [app]. repeat rewrite <- ?app_assoc, <- ?app_comm_cons. apply g_enclosed; auto. eapply suffix_more; eauto.
Qed.
Lemma declor_of_direct S abs td ts x k S' : G (Direct abs td) S ts (x :: k) S' -> G (Declor abs td) S ts (x :: k) S'.
Proof. intros D. pose proof (g_declor S abs td 0 ts x k S' D) as W. cbn in W. rewrite app_nil_r in W. exact W. Qed.
Lemma declor_inv N S ts l S' : G N S ts l S' -> forall abs td, N = Declor abs td ->
  exists n us x k, ts = repeat (TTok Asterisk) n ++ us /\ l = x :: k ++ repeat (node AST_PTR_DECLOR []) n /\ G (Direct abs td) S us (x :: k) S'.
Proof. intros D abs td ->. inversion D; subst. repeat eexists. eauto. Qed.
Lemma star_more S abs td ts x k S' : G (Declor abs td) S ts (x :: k) S' -> G (Declor abs td) S (TTok Asterisk :: ts) (x :: k ++ [node AST_PTR_DECLOR []]) S'.
Proof.
  intros D. destruct (declor_inv _ _ _ _ _ D _ _ eq_refl) as (n & us & x' & k' & -> & E & D'). injection E as -> ->.
  pose proof (g_declor S abs td (Datatypes.S n) us x' k' S' D') as W. cbn [repeat app] in W. rewrite <- app_assoc.
  replace (repeat (node AST_PTR_DECLOR []) n ++ [node AST_PTR_DECLOR []]) with (node AST_PTR_DECLOR [] :: repeat (node AST_PTR_DECLOR []) n); [exact W|].
  apply (repeat_cons n (node AST_PTR_DECLOR [])).
Qed.
Lemma bare_star td S inner x k S' star abs : bare td S inner x k S' star abs -> bare td S (TTok Asterisk :: inner) x (k ++ [n0 AST_PTR_DECLOR []]) S' true abs.
Proof.
  intros B. split. { split; [discriminate|]. destruct k; discriminate. } apply star_more. destruct star; [apply B|]. apply declor_of_direct. exact B.
Qed.
Lemma bare_suffix td S inner x k S' star abs us l : bare td S inner x k S' star abs -> G Suffixes S' us [l] S' -> (inner = [] -> no_leading_name us) ->
  bare td S ((if star then parens inner else inner) ++ us) x (k ++ [l]) S' false abs.
Proof.
  intros B U L. destruct star; cbn.
  - destruct B as [[_ K] D]. unfold parens. cbn [app]. rewrite <- app_assoc. cbn [app]. apply g_enclosed; auto.
  - apply direct_more; auto.
Qed.
Definition known (S : list name) (b : basic) : Prop := match b with BTypedef n => In n S | _ => True end.
Lemma basic_specs S b : known S b -> G DeclSpecs S (specifiers b) (specifier_trees b) S /\ G SpecQual S (specifiers b) (specifier_trees b) S /\
  is_typedef (specifier_trees b) = false.
Proof.
  intros K. assert (T : exists l, Forall2 (fun ts a => G TypeSpec S ts [a] S) l (specifier_trees b) /\ concat l = specifiers b /\ l <> []).
  { exists (match b with BStruct n => [[TTok KwStruct; TIdent n]] | BEnum n => [[TTok KwEnum; TIdent n]] | _ => map (fun t => [t]) (specifiers b) end).
    assert (W : forall c a, In (c, a) type_keywords -> G TypeSpec S [TTok c] [n0 a []] S) by (intros; apply g_type; assumption).
    split; [|split]; [|destruct b; reflexivity|destruct b; discriminate].
    destruct b; cbn [map specifiers specifier_trees]; repeat (apply Forall2_cons; [first [apply g_struct_name | apply g_enum_name | apply g_typedef_name; exact K | apply W; cbn; auto 10]|]); apply Forall2_nil. }
  destruct T as (l & F & <- & N).
  assert (Q : is_typedef (specifier_trees b) = false) by (destruct b; reflexivity). split; [|split; [|exact Q]].
  - clear Q. revert N F. generalize (specifier_trees b). induction l as [|ts l IH]; intros L N F; [destruct (N eq_refl)|]. inversion F; subst. destruct l as [|us l].
    + match goal with H : Forall2 _ [] _ |- _ => inversion H; subst end. cbn. rewrite app_nil_r. apply g_decl_spec. assumption.
    + apply g_decl_spec_more; [assumption|]. apply IH; [discriminate|assumption].
  - clear Q. revert N F. generalize (specifier_trees b). induction l as [|ts l IH]; intros L N F; [destruct (N eq_refl)|]. inversion F; subst. destruct l as [|us l].
    + match goal with H : Forall2 _ [] _ |- _ => inversion H; subst end. cbn. rewrite app_nil_r. apply g_spec. assumption.
    + apply g_spec_more; [assumption|]. apply IH; [discriminate|assumption].
Qed.
Lemma bare_abs S td : bare td S [] (node AST_ABS_DECLOR []) [] S false true.
Proof. apply g_no_name; [constructor|exact Logic.I]. Qed.
Definition param_phrase (S : list name) (p : option name * type) : Prop :=
  G (Declor (match fst p with Some _ => false | None => true end) false) S (around (snd p) (leaf_tokens (fst p)) false) (leaf (fst p) :: links (snd p)) S /\
  (forall n, fst p = Some n -> ~ In n S) /\ known S (basic_of (snd p)).
Lemma bare_leaf S td o : (td = false \/ o = None) -> bare td S (leaf_tokens o) (leaf o) [] S false (match o with Some _ => false | None => true end).
Proof. intros H. destruct o as [n|]; [|apply bare_abs]. destruct H as [->|H]; [|discriminate H]. apply (g_name S false). constructor. Qed.
(** what stands around a declarator never begins with a specifier *)
Lemma around_first S t inner star : no_specifier S inner -> no_specifier S (around t inner star).
Proof.
  revert inner star. induction t as [b|t IH|n t IH|ps t _ IH|t IH] using type_rect'; intros inner star H; cbn; auto.
  - apply IH. cbn. auto.
  - apply IH. destruct star; cbn; auto. destruct inner; cbn in *; auto.
  - apply IH. destruct star; cbn; auto. destruct inner; cbn in *; auto.
  - destruct inner; apply IH; cbn; auto.
Qed.
Lemma params_phrase S ps : Forall (param_phrase S) ps -> G Params S (params_tokens ps) (params_tree ps) S.
Proof.
  assert (One : forall p, param_phrase S p -> G Param S (spell (snd p) (leaf_tokens (fst p)) false) [param_tree p] S).
  { intros [o p] (A & N & K). cbn [fst snd] in *. rewrite spell_around. unfold param_tree. cbn [fst snd]. rewrite declarator_links. destruct (basic_specs S (basic_of p) K) as (D & _ & T).
    eapply g_param; eauto. apply around_first. destruct o; [cbn; apply N; reflexivity|exact Logic.I]. }
  intros F. destruct F as [|p ps A F].
  - apply g_params. apply (One (None, TBasic BVoid)). split; [|split; [discriminate|exact Logic.I]]. apply declor_of_direct. apply bare_abs.
  - cbn [params_tokens params_tree]. revert p A. induction F as [|q ps B F IH]; intros p A; cbn [map separated].
    + apply g_params, One, A.
    + apply g_params_more; [apply One, A|]. apply IH. exact B.
Qed.
Lemma params_head ps us : match ps with (_, p) :: _ => match basic_of p with BTypedef _ => False | _ => True end | [] => True end -> exists c r, params_tokens ps ++ us = TTok c :: r.
Proof.
  destruct ps as [|[o p] ps]; intros H; cbn [params_tokens]; [cbn; eauto|]. assert (K : exists c r, spell p (leaf_tokens o) false = TTok c :: r).
  { rewrite spell_around. destruct (basic_of p); cbn; eauto. destruct H. }
  destruct K as (c & r & K). cbn [map separated fst snd]. rewrite K. destruct (map _ ps); cbn; eauto.
Qed.

Lemma known_of S t : (forall n, In n (type_typedefs t) -> In n S) -> known S (basic_of t).
Proof.
  intros H. induction t as [b|t IH|n t IH|ps t _ IH|t IH] using type_rect'; cbn in *; auto.
  - destruct b; cbn in *; auto.
  - apply IH. intros n I. apply H, in_app_iff. auto.
Qed.
(** the symbols of the grammar by precedence *)
Definition sym (p : nat) : symbol :=
  match p with 1 => Assign | 2 => Cond | 13 => Cast | 14 => Unary | 15 => Postfix | 16 => Primary | _ => Bin (p - 2) end.
Lemma climb S q : forall p ts a, 1 <= p <= q -> q <= 16 -> G (sym q) S ts [a] S -> G (sym p) S ts [a] S.
Proof.
  induction q as [|q IH]; intros p ts a H K D; [lia|]. destruct (Nat.eq_dec p (Datatypes.S q)) as [->|N]; [exact D|]. apply IH; [lia|lia|].
  assert (C : q = 1 \/ q = 2 \/ 3 <= q <= 12 \/ q = 13 \/ q = 14 \/ q = 15) by lia.
  destruct C as [->|[->|[C|[->|[->| ->]]]]]; cbn in D |- *.
  - apply g_unassign, D.
  - apply g_uncond, D.
  - replace (sym q) with (Bin (q - 2)). 2: { do 13 (destruct q as [|q]; [reflexivity || lia|]). lia. }
    apply g_operand; [lia|]. replace (operand_of (q - 2)) with (sym (Datatypes.S q)); [exact D|].
    do 13 (destruct q as [|q]; [reflexivity || lia|]). lia.
  - apply g_uncast, D.
  - apply g_unary, D.
  - apply g_primary, D.
Qed.
Lemma around_phrase t : forall S td x S' abs inner k star, (forall n, In n (type_names t) -> ~ In n S') -> (forall n, In n (type_typedefs t) -> In n S') -> clear (match inner with [] => true | _ => false end) t -> bare td S inner x k S' star abs -> (abs = true -> inner <> [] -> k <> []) ->
  G (Declor abs td) S (around t inner star) (x :: k ++ links t) S'.
Proof.
  induction t as [b|t IH|n t IH|ps t F IH|t IH] using type_rect'; intros S td x S' abs inner k star N T C B K; cbn [around links type_names type_typedefs clear] in *.
  - rewrite app_nil_r. destruct star; [apply B|]. apply declor_of_direct. exact B.
  - replace (k ++ n0 AST_PTR_DECLOR [] :: links t) with ((k ++ [n0 AST_PTR_DECLOR []]) ++ links t) by (rewrite <- app_assoc; reflexivity).
    apply IH; auto; [eapply bare_star; eauto|]. intros _ _ E. destruct k; discriminate E.
  - match goal with |- context [k ++ ?l :: links t] => replace (k ++ l :: links t) with ((k ++ [l]) ++ links t) by (rewrite <- app_assoc; reflexivity) end.
    apply IH; auto; [destruct star; [exact C|destruct inner; exact C]| |intros _ _ E; destruct k; discriminate E]. eapply bare_suffix; eauto; [|intros _; exact Logic.I].
    apply (g_array S' [TInt (number n)] _ [] []); [|constructor]. apply (climb S' 16 2); [lia|lia|]. apply g_int.
  - match goal with |- context [k ++ ?l :: links t] => replace (k ++ l :: links t) with ((k ++ [l]) ++ links t) by (rewrite <- app_assoc; reflexivity) end.
    destruct C as (C1 & C2 & C3).
    apply IH; auto; [intros; apply N, in_app_iff; auto|intros; apply T, in_app_iff; auto|destruct star; [exact C3|destruct inner; exact C3]| |intros _ _ E; destruct k; discriminate E]. eapply bare_suffix; eauto.
    + unfold parens. apply (g_function S' (params_tokens ps) (params_tree ps) [] []); [|constructor]. apply params_phrase.
      rewrite Forall_forall in *. intros p I.
      assert (N' : forall n, In n (match fst p with Some n => [n] | None => [] end ++ type_names (snd p)) -> ~ In n S').
      { intros n J. apply N. apply in_app_iff. left. apply in_concat. eexists. split; [|exact J]. apply (in_map (fun p => match fst p with Some n => [n] | None => [] end ++ type_names (snd p))), I. }
      assert (T' : forall n, In n (type_typedefs (snd p)) -> In n S').
      { intros n J. apply T. apply in_app_iff. left. apply in_concat. eexists. split; [|exact J]. apply (in_map (fun p => type_typedefs (snd p))), I. }
      assert (C' : clear (match fst p with Some _ => false | None => true end) (snd p)).
      { clear -C2 I. induction ps as [|q ps IH]; [destruct I|]. cbn in C2. destruct I as [->|I]; [apply C2|apply IH; [apply C2|exact I]]. }
      split; [|split].
      * apply (F p I S' false (leaf (fst p)) S' _ (leaf_tokens (fst p)) [] false); [intros; apply N', in_app_iff; auto|exact T'|destruct (fst p); exact C'|apply bare_leaf; auto|].
        destruct (fst p); [discriminate|]. intros _ E. destruct (E eq_refl).
      * intros n E. apply N'. rewrite E. left. reflexivity.
      * apply known_of. exact T'.
    + intros ->. destruct (params_head ps [TTok RParen] (C1 eq_refl)) as (c & r & E). unfold parens. rewrite E. exact Logic.I.
  - destruct inner as [|u inner].
    + apply IH; auto. destruct star; [|exact B]. destruct B as [[B _] _]. destruct (B eq_refl).
    + apply IH; auto. 2: { intros A _. apply K; [exact A|discriminate]. }
      unfold bare, parens. change [TTok RParen] with (TTok RParen :: []). replace k with (k ++ []) by apply app_nil_r. apply g_enclosed; [|intros A; apply K; [exact A|discriminate]|constructor].
      destruct star; [apply B|]. apply declor_of_direct. exact B.
Qed.
Lemma type_phrase S t : (forall n, In n (type_names t) -> ~ In n S) -> (forall n, In n (type_typedefs t) -> In n S) -> clear true t -> G TypeName S (spell t [] false) [type_tree t] S.
Proof.
  intros N T C. rewrite spell_around. unfold type_tree. rewrite declarator_links. destruct (basic_specs S (basic_of t) (known_of S t T)) as (_ & D & _). apply g_type_name; auto.
  - apply (around_phrase t S false (node AST_ABS_DECLOR []) S true [] [] false); auto. apply bare_abs.
  - apply around_first. exact Logic.I.
Qed.

(* -------------------------------------------------------------- expressions *)
Lemma expr_rect' (P : expr -> Prop) : (forall n, P (EName n)) -> (forall i, P (EInt i)) -> (forall i, P (EChar i)) -> (forall s, P (EString s)) ->
  (forall a b, P a -> P b -> P (EIndex a b)) -> (forall a l, P a -> Forall P l -> P (ECall a l)) -> (forall a n, P a -> P (EDot a n)) -> (forall a n, P a -> P (EArrow a n)) ->
  (forall a, P a -> P (EPostInc a)) -> (forall a, P a -> P (EPostDec a)) -> (forall a, P a -> P (EPreInc a)) -> (forall a, P a -> P (EPreDec a)) ->
  (forall o a, P a -> P (EUnary o a)) -> (forall a, P a -> P (ESizeof a)) -> (forall t, P (ESizeofType t)) -> (forall t a, P a -> P (ECast t a)) ->
  (forall o a b, P a -> P b -> P (EBinary o a b)) -> (forall a b c, P a -> P b -> P c -> P (ECond a b c)) -> (forall o a b, P a -> P b -> P (EAssign o a b)) -> forall e, P e.
Proof.
  intros H1 H2 H3 H4 H5 H6 H7 H8 H9 H10 H11 H12 H13 H14 H15 H16 H17 H18 H19. fix F 1.
  destruct e as [n|i|i|s|a b|a l|a n|a n|a|a|a|a|o a|a|t|t a|o a b|a b c|o a b];
  [apply H1|apply H2|apply H3|apply H4|apply H5|apply H6|apply H7|apply H8|apply H9|apply H10|apply H11|apply H12|apply H13|apply H14|apply H15|apply H16|apply H17|apply H18|apply H19]; try apply F.
  induction l as [|x l IH]; constructor; [apply F|exact IH].
Qed.
Lemma prec_range e : 1 <= prec e <= 16.
Proof. destruct e; cbn; try lia. destruct o; cbn; lia. Qed.
(** the tokens without outer parentheses *)
Definition raw (e : expr) : list token := write (prec e) e.
Lemma write_raw p e : write p e = if prec e <? p then parens (raw e) else raw e.
Proof. unfold raw. destruct e; cbn [write prec]; rewrite Nat.ltb_irrefl; reflexivity. Qed.
Lemma lift S e : G (sym (prec e)) S (raw e) [tree e] S -> forall p, 1 <= p <= 16 -> G (sym p) S (write p e) [tree e] S.
Proof.
  intros D p R. pose proof (prec_range e) as Q. rewrite write_raw. destruct (prec e <? p) eqn:E.
  - apply Nat.ltb_lt in E. apply (climb S 16); [lia|lia|]. cbn [sym]. apply g_paren. apply (climb S (prec e) 1); [lia|lia|exact D].
  - apply Nat.ltb_ge in E. apply (climb S (prec e)); [lia|lia|exact D].
Qed.
Lemma args_phrase S l : Forall (fun e => forall p, 1 <= p <= 16 -> G (sym p) S (write p e) [tree e] S) l -> G Args S (separated (map (write 1) l)) (map tree l) S.
Proof.
  intros F. destruct F as [|e l A F]; [constructor|]. apply g_args. revert e A. induction F as [|d l B F IH]; intros e A; cbn [map separated].
  - apply g_arg. apply (A 1). lia.
  - apply g_arg_more; [apply (A 1); lia|]. apply IH. exact B.
Qed.
Lemma write_phrase S e : (forall n, In n (names e) -> ~ In n S) -> (forall n, In n (typedefs e) -> In n S) -> clear_expr e -> forall p, 1 <= p <= 16 -> G (sym p) S (write p e) [tree e] S.
Proof.
  induction e using expr_rect'; intros N T C; apply lift; unfold raw, names, typedefs in *; cbn [write prec collect tree clear_expr] in *; rewrite ?Nat.ltb_irrefl;
  repeat match goal with
    | IH : (forall n, In n (collect type_names _ ?e) -> _) -> _ -> _ -> forall p, _ |- _ =>
      let IH' := fresh "J" in assert (IH' : forall p, 1 <= p <= 16 -> G (sym p) S (write p e) [tree e] S)
        by (apply IH; [intros; apply N; rewrite ?in_app_iff; auto|intros; apply T; rewrite ?in_app_iff; auto|tauto]);
      clear IH; rename IH' into IH
    end; cbn [app sym Nat.ltb Nat.leb].
  - apply g_ident. apply N. left. reflexivity.
  - apply g_int.
  - apply g_char.
  - apply g_string.
  - apply g_index; [apply (IHe1 15); lia|apply (IHe2 1); lia].
  - apply g_call; [apply (IHe 15); lia|]. apply args_phrase. destruct C as [_ C]. rewrite Forall_forall in *. intros x I. apply (H x I).
    + intros n K. apply N. apply in_app_iff. right. apply in_concat. eexists. split; [apply in_map, I|exact K].
    + intros n K. apply T. apply in_app_iff. right. apply in_concat. eexists. split; [apply in_map, I|exact K].
    + clear -C I. induction l as [|y l IH]; [destruct I|]. cbn in C. destruct I as [->|I]; [apply C|apply IH; [apply C|exact I]].
  - apply (g_member S _ _ Dot); [apply (IHe 15); lia|cbn; auto].
  - apply (g_member S _ _ Arrow); [apply (IHe 15); lia|cbn; auto].
  - apply (g_postfix S _ _ PlusPlus); [apply (IHe 15); lia|cbn; auto].
  - apply (g_postfix S _ _ MinusMinus); [apply (IHe 15); lia|cbn; auto].
  - apply (g_prefix S PlusPlus); [cbn; auto|apply (IHe 14); lia].
  - apply (g_prefix S MinusMinus); [cbn; auto|apply (IHe 14); lia].
  - apply (g_unary_op S (unary_token o)); [destruct o; cbn; auto 10|apply (IHe 13); lia].
  - apply g_sizeof. apply (IHe 14); lia.
  - apply g_sizeof_type. apply type_phrase; assumption.
  - unfold parens. cbn [app]. rewrite <- app_assoc. apply g_cast; [apply type_phrase; [intros; apply N, in_app_iff; auto|intros; apply T, in_app_iff; auto|apply C]|]. apply (IHe 13); lia.
  - assert (I : In (binary_prec o - 2, binary_token o, binary_node o) binary_operators) by (destruct o; cbn; auto 30).
    assert (K : 3 <= binary_prec o <= 12) by (destruct o; cbn; lia).
    assert (Es : sym (binary_prec o) = Bin (binary_prec o - 2)) by (destruct o; reflexivity). rewrite Es.
    eapply g_binary; [exact I| |].
    + rewrite <- Es. apply IHe1. lia.
    + replace (operand_of (binary_prec o - 2)) with (sym (Datatypes.S (binary_prec o))) by (destruct o; reflexivity). apply IHe2. lia.
  - apply g_cond; [apply (IHe1 3); lia|apply (IHe2 1); lia|apply (IHe3 2); lia].
  - eapply (g_assign S _ _ (assign_token o)); [apply (IHe1 14); lia|destruct o; cbn; auto 20|apply (IHe2 1); lia].
Qed.
Lemma spec_declaration S t n : ~ In n S -> (forall m, In m (type_names t) -> ~ In m S) -> (forall m, In m (type_typedefs t) -> In m S) -> clear false t ->
  G (Decl false) S (declare t n ++ [TTok Semicolon])
  [n0 AST_DECL [n0 AST_DECL_SPECS (specifier_trees (basic_of t)); n0 AST_INIT_DECLOR_LIST [n0 AST_INIT_DECLOR [declarator t (Ast AST_IDENT_DECLOR (PName n) [])]]]] S.
Proof.
  intros N M T' C. unfold declare. rewrite spell_around, declarator_links, <- app_assoc. destruct (basic_specs S (basic_of t) (known_of S t T')) as (D & _ & T).
  pose proof (g_decl S (specifiers (basic_of t)) (specifier_trees (basic_of t)) (around t [TIdent n] false)) as W. rewrite T in W. apply W; auto.
  - apply g_init_declors, g_init_declor. apply (around_phrase t S false (named AST_IDENT_DECLOR n) S false [TIdent n] [] false); [exact M|exact T'|exact C| |discriminate]. apply g_name. constructor.
  - apply around_first. exact N.
Qed.
Lemma typedef_phrase S n : ~ In n S -> G (Decl true) S [TTok KwTypedef; TTok KwInt; TIdent n; TTok Semicolon]
  [n0 AST_DECL [n0 AST_DECL_SPECS [n0 AST_STG_TYPEDEF []; n0 AST_TYPE_INT []]; n0 AST_INIT_DECLOR_LIST [n0 AST_INIT_DECLOR [Ast AST_IDENT_DECLOR (PName n) []]]]] (n :: S).
Proof.
  intros N. apply (g_decl S [TTok KwTypedef; TTok KwInt] [n0 AST_STG_TYPEDEF []; n0 AST_TYPE_INT []] [TIdent n]).
  - apply g_typedef_more. apply (basic_specs S BInt Logic.I).
  - apply g_init_declors. apply (g_init_declor S true [TIdent n] (named AST_IDENT_DECLOR n) [] (n :: S)). apply (declor_of_direct S false true [TIdent n] (named AST_IDENT_DECLOR n) []). apply (g_name S true). constructor.
  - exact N.
Qed.
Lemma main_phrase S n e : ~ In n S -> (forall m, In m (names e) -> ~ In m S) -> (forall m, In m (typedefs e) -> In m S) -> clear_expr e ->
  G External S (main_tokens n (write 1 e)) [main_tree n (tree e)] S.
Proof.
  intros N M T' C.
  assert (D : G (Declor false false) S (around (TFunction [] (TBasic BInt)) [TIdent n] false) (named AST_IDENT_DECLOR n :: [] ++ links (TFunction [] (TBasic BInt))) S)
    by (apply around_phrase; [cbn; intros ? []|cbn; intros ? []|cbn; auto|apply (g_name S false); constructor|discriminate]).
  destruct (basic_specs S BInt Logic.I) as (Q & _ & T).
  pose proof (g_function_definition S [TTok KwInt] [n0 AST_TYPE_INT []] _ _ _ S (TTok LBrace :: (TTok KwReturn :: write 1 e ++ [TTok Semicolon]) ++ [TTok RBrace]) (n0 AST_CMPD_STMT [n0 AST_RET_STMT [tree e]]) Q D) as W.
  cbn in W. rewrite <- app_assoc in W. unfold main_tokens. cbn. apply W; auto.
  rewrite app_comm_cons. change [TTok Semicolon; TTok RBrace] with ([TTok Semicolon] ++ [TTok RBrace]). rewrite app_assoc. apply g_compound with (S' := S).
  rewrite <- (app_nil_r ((TTok KwReturn :: _) ++ _)). apply (g_item S (Stmt true)) with (S' := S); auto; [|constructor].
  cbn. apply g_return_value. apply (write_phrase S e) with (p := 1); auto. lia.
Qed.
Lemma prelude_phrase us a : forall l S, NoDup l -> (forall n, In n l -> ~ In n S) -> G External (rev l ++ S) us [a] (rev l ++ S) ->
  G Unit S (concat (map typedef_tokens l) ++ us) (map typedef_tree l ++ [a]) (rev l ++ S).
Proof.
  induction l as [|n l IH]; intros S D N E; cbn [map concat rev app] in *; [apply g_unit, E|]. inversion D as [|? ? N' D']; subst. rewrite <- app_assoc in E. cbn [app] in E.
  rewrite <- !app_assoc. apply g_unit_more with (S' := n :: S).
  - apply (g_declaration S true). apply typedef_phrase. apply N. left. reflexivity.
  - cbn [app]. apply IH; auto. intros m I [<-|J]; [destruct (N' I)|]. apply (N m); [right; exact I|exact J].
Qed.
Theorem parse_write l n e : NoDup l -> ~ In n l -> (forall m, In m (names e) -> ~ In m l) -> (forall m, In m (typedefs e) -> In m l) -> clear_expr e ->
  parse_tokens (concat (map typedef_tokens l) ++ main_tokens n (write 1 e) ++ [TTok CtEOF]) = Ok (n0 AST_TRAS_UNIT (map typedef_tree l ++ [main_tree n (tree e)])).
Proof.
  intros D N M T C. rewrite app_assoc. eapply grammar_complete. apply prelude_phrase; [exact D|intros ? _ []|]. rewrite app_nil_r.
  apply main_phrase; auto; intros m; try intros I; rewrite <- in_rev in *; auto.
Qed.
Lemma declaration_phrase t n : type_typedefs t = [] -> clear false t -> G Unit [] (declare t n ++ [TTok Semicolon])
  [n0 AST_DECL [n0 AST_DECL_SPECS (specifier_trees (basic_of t)); n0 AST_INIT_DECLOR_LIST [n0 AST_INIT_DECLOR [declarator t (Ast AST_IDENT_DECLOR (PName n) [])]]]] [].
Proof. intros T C. apply g_unit, (g_declaration [] false), spec_declaration; auto. rewrite T. auto. Qed.
Theorem parse_declare t n : type_typedefs t = [] -> clear false t -> parse_tokens (declare t n ++ [TTok Semicolon; TTok CtEOF]) = Ok (n0 AST_TRAS_UNIT
  [n0 AST_DECL [n0 AST_DECL_SPECS (specifier_trees (basic_of t)); n0 AST_INIT_DECLOR_LIST [n0 AST_INIT_DECLOR [declarator t (Ast AST_IDENT_DECLOR (PName n) [])]]]]).
Proof.
  intros T C. change [TTok Semicolon; TTok CtEOF] with ([TTok Semicolon] ++ [TTok CtEOF]). rewrite app_assoc. eapply grammar_complete. apply declaration_phrase; auto.
Qed.
