(** Whatever the parser accepts is a phrase of the grammar: specifiers, declarators, declarations and statements. *)
From Verif Require Import Base LiteralModel LexerModel AstModel ParserModel ParserProofs TypeProofs Grammar GrammarProofs GrammarProofs2 GrammarProofs3 GrammarProofs4 GrammarProofs5 GrammarProofs6.
Open Scope nat_scope.

Lemma V_weaken (Q Q' : post_cond) m : V Q m -> (forall o ts S fl, Q o ts S fl -> Q' o ts S fl) -> V Q' m.
Proof. intros H W o ts S fl E. apply W, H, E. Qed.
Lemma tok_eq t c : ctype_eqb (ttype t) c = true -> c <> CtIdent -> c <> CtInt -> c <> CtChar -> c <> CtString -> t = TTok c.
Proof. intros E. apply ctype_eqb_spec in E. now apply ttype_tok. Qed.
Ltac tok E t := apply tok_eq in E; try discriminate; subst t; outs.
Lemma spec_not_typedef S ts l S' : G TypeSpec S ts l S' -> is_typedef l = false.
Proof. intros H. inversion H; subst; op_cases; reflexivity. Qed.
Lemma declor_no_specifier abs td S us k S' r : G (Declor abs td) S us k S' -> match us ++ r with [] => True | t :: _ => ~ type_first S t end -> no_specifier S us.
Proof.
  intros D H. pose proof (G_first _ _ _ _ _ D) as F. destruct us as [|t us]; [exact Logic.I|]. cbn in H |- *. intros B. apply H. split; [exact B|].
  destruct abs; cbn in F.
  - destruct F as [F|(t' & r' & E & A)]; [discriminate|]. injection E as <- <-. intros ->. exact A.
  - destruct F as (t' & r' & E & A). injection E as <- <-. intros ->. exact A.
Qed.
Lemma no_specifier_app S us r : no_specifier S (us ++ r) -> no_specifier S us.
Proof. destruct us; cbn; auto. Qed.
Lemma pointer_loop_inv ts m a ts' : pointer_loop ts (ptrs m) = Ok (a, ts') -> exists n, ts = repeat (TTok Asterisk) n ++ ts' /\ a = ptrs (n + m).
Proof.
  revert m. induction ts as [|t ts IH]; intros m E; [discriminate E|]. cbn [pointer_loop] in E. destruct (ctype_eqb (ttype t) Asterisk) eqn:K.
  - apply tok_eq in K; try discriminate. subst t. change (new_ast AST_PTR_DECLOR [ptrs m]) with (ptrs (S m)) in E. apply IH in E. destruct E as (n & -> & ->).
    exists (S n). split; [reflexivity|]. f_equal. lia.
  - injection E as <- <-. exists 0. split; reflexivity.
Qed.
Lemma out_stars d n r : typedefs_outside d (repeat (TTok Asterisk) n ++ r) -> typedefs_outside d r.
Proof. induction n; cbn; auto. Qed.

Ltac splits := repeat lazymatch goal with |- _ /\ _ => split end.
Tactic Notation "st" "in" hyp(E) := unfold advance, with_toks, with_flag, with_names in E; cbn [bind pok perr ParserModel.toks tdnames tdflag tl] in E.

Section Sound.
Variable f : nat.
Hypothesis T : sound f.

(* ------------------------------------------------------------ specifiers *)
Lemma s_tagged d c ty tagty body (N : symbol) ts S fl : typedefs_outside d ts ->
  (forall ts o ts' S' fl', claim d body ts S fl o ts' S' fl' ->
     match o with None => S' = S /\ fl' = fl | Some b => exists us l, ts = us ++ ts' /\ G N S us l S /\ b = node (match N with Enumors => AST_ENUMOR_LIST | _ => AST_STRUCT_DECL_LIST end) l /\ S' = S /\ fl' = fl end) ->
  (inside body -> False) ->
  (forall n, G TypeSpec S [TTok c; TIdent n] [node ty [named tagty n]] S) ->
  (forall n us b, (exists l, G N S us l S /\ b = node (match N with Enumors => AST_ENUMOR_LIST | _ => AST_STRUCT_DECL_LIST end) l) ->
     G TypeSpec S (TTok c :: TIdent n :: TTok LBrace :: us ++ [TTok RBrace]) [node ty [named tagty n; b]] S) ->
  (forall us b, (exists l, G N S us l S /\ b = node (match N with Enumors => AST_ENUMOR_LIST | _ => AST_STRUCT_DECL_LIST end) l) ->
     G TypeSpec S (TTok c :: TTok LBrace :: us ++ [TTok RBrace]) [node ty [b]] S) ->
  V (fun o ts' S' fl' => match o with None => S' = S /\ fl' = fl | Some a => exists us, TTok c :: ts = us ++ ts' /\ G TypeSpec S us [a] S /\ S' = S /\ fl' = fl end)
    (parse_tagged (parse f) ty tagty body (mkpst ts S fl)).
Proof.
  intros O HB HI H1 H2 H3. unfold parse_tagged. vstep.
  assert (W : forall tag ts0 x, typedefs_outside d ts0 -> TTok c :: t :: r = x ++ ts0 ->
    (tag <> [] -> G TypeSpec S x [node ty tag] S) ->
    (forall us b, (exists l, G N S us l S /\ b = node (match N with Enumors => AST_ENUMOR_LIST | _ => AST_STRUCT_DECL_LIST end) l) -> G TypeSpec S (x ++ TTok LBrace :: us ++ [TTok RBrace]) [node ty (tag ++ [b])] S) ->
    V (fun o ts' S' fl' => match o with None => S' = S /\ fl' = fl | Some a => exists us, TTok c :: t :: r = us ++ ts' /\ G TypeSpec S us [a] S /\ S' = S /\ fl' = fl end)
      (do t <- peek (mkpst ts0 S fl);
       if ctype_eqb (ttype t) LBrace then
         ptry b, st <- parse f body (advance (mkpst ts0 S fl));
         consume RBrace st (fun st => pok (new_ast ty (tag ++ [b])) st)
       else match tag with [] => perr (mkpst ts0 S fl) | _ => pok (new_ast ty tag) (mkpst ts0 S fl) end)).
  { intros tag ts0 x O0 Ex K1 K2. rewrite Ex. clear Ex. vstep. destruct (ctype_eqb (ttype t0) LBrace) eqn:E.
    - tok E t0. st. unfold pbind. apply (V_rec f T _ d); [exact O0|intros I; destruct (HI I)|]. intros o ts' S' fl' C. apply HB in C. destruct o as [b|].
      + destruct C as (us & l & -> & D & -> & -> & ->). outs. vstep. vstep. exists (x ++ TTok LBrace :: us ++ [TTok RBrace]). split; [list_eq|]. split; [|auto].
        apply K2. eauto.
      + destruct C as [-> ->]. vstep.
    - destruct tag as [|a tag].
      + vstep.
      + vstep. exists x. split; [reflexivity|]. split; [|auto]. apply K1. discriminate. }
  destruct t as [k|n|i|i|s].
  2: { refine (W [new_identifier_ast tagty n] r [TTok c; TIdent n] _ _ _ _); auto. intros us b D. apply (H2 n us b D). }
  all: lazymatch goal with |- V (fun _ _ _ _ => match _ with Some _ => exists _, _ :: ?ts = _ /\ _ | None => _ end) _ => refine (W [] ts [TTok c] _ _ _ _) end; auto; congruence.
Qed.
Lemma s_struct d ts S fl : typedefs_outside d ts -> V (claim d NStruct ts S fl) (parse_struct (parse f) (mkpst ts S fl)).
Proof.
  intros O. unfold parse_struct. vstep. eapply V_weaken.
  - apply (s_tagged d KwStruct AST_TYPE_STRUCT AST_STRUCT_NAME (NStructDeclList []) StructDecls r S fl O); cbn; auto.
    + intros ts o ts' S' fl' C. destruct o as [b|]; cbn in C; auto. destruct C as (us & -> & (l & -> & D) & -> & ->). exists us, l. auto.
    + intros n. apply g_struct_name.
    + intros n us b (l & D & ->). apply (g_struct_named S n us l D).
    + intros us b (l & D & ->). apply (g_struct S us l D).
  - intros o ts' S' fl' H. destruct o as [b|]; cbn; auto.
Qed.
Lemma s_enum d ts S fl : typedefs_outside d ts -> V (claim d NEnum ts S fl) (parse_enum (parse f) (mkpst ts S fl)).
Proof.
  intros O. unfold parse_enum. vstep. eapply V_weaken.
  - apply (s_tagged d KwEnum AST_TYPE_ENUM AST_ENUM_NAME (NEnumorList []) Enumors r S fl O); cbn; auto.
    + intros ts o ts' S' fl' C. destruct o as [b|]; cbn in C; auto. destruct C as (us & -> & (l & -> & D) & -> & ->). exists us, l. auto.
    + intros n. apply g_enum_name.
    + intros n us b (l & D & ->). apply (g_enum_named S n us l D).
    + intros us b (l & D & ->). apply (g_enum S us l D).
  - intros o ts' S' fl' H. destruct o as [b|]; cbn; auto.
Qed.
Lemma s_type_spec d ts S fl : typedefs_outside d ts -> V (claim d NTypeSpec ts S fl) (parse_type_spec (parse f) (mkpst ts S fl)).
Proof.
  intros O. unfold parse_type_spec. vstep. destruct t as [c|n|i|i|s]; try apply V_fatal.
  - destruct c; try apply V_fatal.
    all: try (vstep; lazymatch goal with |- claim _ _ (TTok ?c :: _) _ _ _ _ _ _ => read [TTok c]; split; auto; apply (g_type S c); cbn; auto 10 end; fail).
    all: vstep; call; keep D; read us; split; auto.
  - st. destruct (is_typedef_name S n) eqn:E; [|apply V_fatal]. vstep. read [TIdent n]. split; auto. apply g_typedef_name. apply is_typedef_name_in. exact E.
Qed.
Lemma s_decl_specs d acc b ts S fl : typedefs_outside d ts -> V (claim d (NDeclSpecs acc b) ts S fl) (parse_decl_specs (parse f) acc b (mkpst ts S fl)).
Proof.
  intros O. unfold parse_decl_specs. vstep. destruct (is_storage_class t) eqn:E.
  - unfold is_storage_class in E. tok E t. destruct O as [Z O]. vstep. call. destruct D as ((l & -> & D & -> & D2) & D3 & ->).
    read (TTok KwTypedef :: us). split; auto. exists (node AST_STG_TYPEDEF [] :: l). split; [rewrite <- app_assoc; reflexivity|]. split.
    + left. destruct D as [D|(-> & -> & _)]; [apply g_typedef_more; exact D|apply g_typedef].
    + split; [|intros W; congruence]. cbn. now rewrite orb_true_r.
  - st. destruct (is_type_specifier S t) eqn:K.
    + vstep. keep D. vstep. call. destruct D as ((l & -> & D & -> & D2) & D3 & ->). read (us ++ us0). split; auto. exists (a :: l). split; [rewrite <- app_assoc; reflexivity|].
      assert (Ea : is_typedef (a :: l) = is_typedef l).
      { pose proof (spec_not_typedef _ _ _ _ D0) as A. cbn in A |- *. rewrite orb_false_r in A. rewrite A. reflexivity. }
      rewrite Ea. split; [|auto]. left. destruct D as [D|(-> & -> & _)]; [apply g_decl_spec_more; auto|rewrite app_nil_r; apply g_decl_spec; exact D0].
    + destruct acc as [|a acc]; vstep. read (@nil token). split.
      * exists []. rewrite app_nil_r. split; [reflexivity|]. split; [right; splits; congruence|]. split; [now rewrite orb_false_r|reflexivity].
      * split; [|reflexivity]. cbn. intros B. apply begins_ok in B. rewrite E, K in B. discriminate B.
Qed.
Lemma s_spec_qual d acc ts S fl : typedefs_outside d ts -> V (claim d (NSpecQual acc) ts S fl) (parse_spec_qual (parse f) acc (mkpst ts S fl)).
Proof.
  intros O. unfold parse_spec_qual. vstep. st. destruct (is_type_specifier S t) eqn:K.
  + vstep. keep D. vstep. call. destruct D as ((l & -> & D) & D3 & -> & ->). read (us ++ us0). split; auto. exists (a :: l). split; [rewrite <- app_assoc; reflexivity|].
    left. destruct D as [D|(-> & -> & _)]; [apply g_spec_more; auto|rewrite app_nil_r; apply g_spec; exact D0].
  + destruct acc as [|a acc]; vstep. read (@nil token). split.
    * exists []. rewrite app_nil_r. split; [reflexivity|]. right; splits; congruence.
    * splits; auto. intros B. apply type_first_ok in B. congruence.
Qed.
Lemma abs_at_paren g r S fl st : parse g (NDeclor true) (mkpst (TTok RParen :: r) S fl) <> Ok (None, st).
Proof. destruct g as [|[|[|g]]]; cbn; discriminate. Qed.
Lemma s_type_name d ts S fl : typedefs_outside d ts -> V (claim d NTypeName ts S fl) (parse_type_name (parse f) (mkpst ts S fl)).
Proof.
  intros O. unfold parse_type_name. st. vstep. call.
  - destruct D as ((l & -> & D) & D3 & -> & ->). destruct D as [D|(_ & _ & D)]; [|congruence]. outs. cbn [app].
    intros o ts' S' fl' E. revert E. st. destruct (parse f (NDeclor true) (mkpst r S false)) as [[[a|] [ts1 S1 fl1]]| | | |] eqn:P; intros E; try discriminate E; st in E; injection E as <- <- <- <-.
    + apply (T d _ _ _ _ _ _ _ _ O (fun z : inside (NDeclor true) => match z with end)) in P. destruct P as (us' & -> & (x & k & -> & D') & D2 & ->). pose proof (G_same _ _ _ _ _ D' (or_introl eq_refl)) as ->.
      read (us ++ us'). split; auto. destruct ts1 as [|[[]| | | |] ts1]; auto. apply g_type_name; auto. eapply declor_no_specifier; eauto.
    + assert (E : S1 = S /\ fl1 = false). { apply (T d _ _ _ _ _ _ _ _ O (fun z : inside (NDeclor true) => match z with end)) in P. cbn in P. auto. } destruct E as [-> ->].
      read us. split; auto. destruct r as [|[[]| | | |] r]; auto. exfalso. eapply abs_at_paren; eauto.
  - vstep.
Qed.

(* ------------------------------------------- structures and enumerations *)
Lemma s_struct_decl_list d acc ts S fl : typedefs_outside d ts -> V (claim d (NStructDeclList acc) ts S fl) (parse_struct_decl_list (parse f) acc (mkpst ts S fl)).
Proof.
  intros O. unfold parse_struct_decl_list. vstep. keep D. vstep. destruct (ctype_eqb _ _).
  - vstep. read us. split; auto. exists [a]. split; [reflexivity|]. apply g_struct_decls. exact D0.
  - vstep. call. keep D. destruct D1 as (l & -> & D1). read (us ++ us0). split; auto. exists (a :: l). split; [rewrite <- app_assoc; reflexivity|]. apply g_struct_decls_more; auto.
Qed.
Lemma s_struct_decl d ts S fl : typedefs_outside d ts -> V (claim d NStructDecl ts S fl) (parse_struct_decl (parse f) (mkpst ts S fl)).
Proof.
  intros O. unfold parse_struct_decl. st. vstep. call; [|vstep]. destruct D as ((l & -> & D) & D3 & -> & ->). destruct D as [D|(_ & _ & D)]; [|congruence]. outs.
  st. vstep. call; [|vstep]. destruct (D0 eq_refl) as ((ds & -> & D1) & -> & ->). outs. vstep. vstep.
  read (us ++ us0 ++ [TTok Semicolon]). split; auto. apply g_struct_decl; auto.
  inversion D1; subst.
  - eapply declor_no_specifier; eauto.
  - rewrite <- app_assoc in D3. cbn in D3. pose proof (declor_no_specifier _ _ _ _ _ _ _ H D3) as W. destruct ts; cbn in *; auto.
Qed.
Lemma s_struct_declor_list d acc ts S fl : typedefs_outside d ts -> V (claim d (NStructDeclorList acc) ts S fl) (parse_struct_declor_list (parse f) acc (mkpst ts S fl)).
Proof.
  intros O. unfold parse_struct_declor_list. vstep. destruct D as ((x & k & -> & D) & _ & ->). outs. vstep.
  assert (Sm : fl = false -> S' = S) by (intros ->; apply (G_same _ _ _ _ _ D); auto). destruct (ctype_eqb (ttype t) Comma) eqn:E.
  - tok E t. vstep. call.
    read (us ++ TTok Comma :: us0). intros Z. rewrite (Sm Z) in *. destruct (D0 Z) as ((l & -> & D1) & -> & ->). split; auto. exists (declarator_tree x k :: l).
      split; [rewrite <- app_assoc; reflexivity|]. subst fl. apply g_struct_declor_more; auto.
  - vstep. read us. intros Z. rewrite (Sm Z) in *. split; auto. exists [declarator_tree x k]. split; [reflexivity|]. subst fl. apply g_struct_declor. exact D.
Qed.
Lemma s_enumor_list d acc ts S fl : typedefs_outside d ts -> V (claim d (NEnumorList acc) ts S fl) (parse_enumor_list (parse f) acc (mkpst ts S fl)).
Proof.
  intros O. unfold parse_enumor_list. vstep. keep D. vstep. destruct (ctype_eqb _ _).
  - vstep. read us. split; auto. exists [a]. split; [reflexivity|]. apply g_enumors. exact D0.
  - vstep. vstep. destruct (ctype_eqb _ _).
    + vstep. read (us ++ [TTok Comma]). split; auto. exists [a]. split; [reflexivity|]. apply g_enumors_comma. exact D0.
    + vstep. call. keep D. destruct D1 as (l & -> & D1). read (us ++ TTok Comma :: us0). split; auto. exists (a :: l). split; [rewrite <- app_assoc; reflexivity|]. apply g_enumors_more; auto.
Qed.
Lemma s_enumor d ts S fl : typedefs_outside d ts -> V (claim d NEnumor ts S fl) (parse_enumor (parse f) (mkpst ts S fl)).
Proof.
  intros O. unfold parse_enumor. vstep. destruct t as [c|n|i|i|s]; try (vstep; fail). outs. st. vstep. destruct (ctype_eqb (ttype t) Equal) eqn:E.
  - tok E t. unfold parse_constant_expr. vstep. keep D. vstep. read (TIdent n :: TTok Equal :: us). split; auto. apply g_enumor_value. exact D0.
  - vstep. read [TIdent n]. split; auto. apply g_enumor.
Qed.

(* ------------------------------------------------------------ declarators *)
Lemma s_suffixes d acc ts S fl : typedefs_outside d ts -> V (claim d (NSuffixes acc) ts S fl) (parse_suffixes (parse f) acc (mkpst ts S fl)).
Proof.
  intros O. unfold parse_suffixes, parse_constant_expr. vstep.
  destruct (ttype t) eqn:E; try (vstep; read (@nil token); split; auto; exists []; rewrite app_nil_r; split; [reflexivity|constructor]).
  all: apply ttype_tok in E; try discriminate; subst t; outs.
  - vstep. keep D. vstep. vstep. call. keep D. destruct D1 as (l & -> & D1). read (TTok LBracket :: us ++ TTok RBracket :: us0). split; auto.
    eexists. split; [rewrite <- app_assoc; reflexivity|]. apply g_array; auto.
  - vstep. keep D. destruct D0 as (ps & -> & D0). outs. vstep. vstep. call. keep D. destruct D1 as (l & -> & D1). read (TTok LParen :: us ++ TTok RParen :: us0). split; auto.
    eexists. split; [rewrite <- app_assoc; reflexivity|]. apply g_function; auto.
Qed.
Definition after_end (x : ast) (k0 : list ast) (ts : list token) (S : list name) (fl : bool) : post_cond := fun o ts' S' fl' =>
  S' = S /\ fl' = fl /\ match o with None => True | Some a => exists us k, ts = us ++ ts' /\ a = declarator_tree x (k0 ++ k) /\ G Suffixes S us k S end.
Lemma s_end_none d abs x ts S fl : typedefs_outside d ts -> V (after_end x [] ts S fl) (direct_end (parse f) abs None x (mkpst ts S fl)).
Proof.
  intros O. unfold direct_end. vstep.
  - keep D. destruct D0 as (k & -> & D). vstep. split; [reflexivity|]. split; [reflexivity|]. exists us, k. split; [reflexivity|]. split; [apply chain_tree|exact D].
  - intros ts' S' fl' C. destruct (C Logic.I) as [-> ->]. split; auto.
Qed.
Lemma s_end_some d abs x k0 ts S fl : typedefs_outside d ts -> termish abs x -> Forall linkish k0 -> k0 <> [] ->
  V (after_end x k0 ts S fl) (direct_end (parse f) abs (Some (declarator_tree x k0)) x (mkpst ts S fl)).
Proof.
  intros O Tx Fk Nk. unfold direct_end. vstep.
  - keep D. destruct D0 as (k & -> & D). rewrite (tree_replace abs x k0 _ Tx Fk Nk). cbn [bind]. vstep. split; [reflexivity|]. split; [reflexivity|].
    exists us, k. split; [reflexivity|]. split; [|exact D]. rewrite tree_app. f_equal. apply chain_tree.
  - intros ts' S' fl' C. destruct (C Logic.I) as [-> ->]. split; auto.
Qed.
Lemma s_direct d abs ts S fl : typedefs_outside d ts -> V (claim d (NDirect abs) ts S fl) (parse_direct (parse f) abs (mkpst ts S fl)).
Proof.
  intros O. unfold parse_direct. st. vstep.
  assert (A : match t with TTok LParen | TIdent _ => False | _ => True end ->
    V (claim d (NDirect abs) (t :: r) S fl) (if abs then direct_end (parse f) abs None (new_ast AST_ABS_DECLOR []) (mkpst (t :: r) S fl) else perr (mkpst (t :: r) S fl))).
  { intros Ht. destruct abs; [|vstep]. eapply V_weaken; [apply (s_end_none d); exact O|]. intros o ts' S' fl' (-> & -> & C). destruct o as [a|]; [|cbn; auto].
    destruct C as (us & k & E & -> & D). exists us. split; [exact E|]. split; [|split; [|reflexivity]].
    - exists (new_ast AST_ABS_DECLOR []), k. split; [reflexivity|]. apply g_no_name; [exact D|]. destruct us as [|u us]; [exact Logic.I|]. cbn in E. injection E as <- _.
      destruct t as [[]| | | |]; try exact Logic.I; destruct Ht.
    - intros _. rewrite <- E. destruct t as [[]| | | |]; try exact Logic.I; destruct Ht. }
  assert (B : forall x k us S' r', termish abs x -> Forall linkish k -> k <> [] -> typedefs_outside d r' -> G (Declor abs fl) S us (x :: k) S' -> (quiet (NDirect abs) fl -> S' = S) ->
    V (claim d (NDirect abs) (TTok LParen :: us ++ TTok RParen :: r') S fl) (direct_end (parse f) abs (Some (declarator_tree x k)) x (mkpst r' S' fl))).
  { intros x k us S' r' Tx Fk Nk O' D Sm. eapply V_weaken; [apply (s_end_some d); eauto|]. intros o ts' S'' fl' (-> & -> & C). destruct o as [a|].
    - destruct C as (us' & k' & -> & -> & D'). read (TTok LParen :: us ++ TTok RParen :: us'). split; [|split; [intros _; exact Logic.I|reflexivity]].
      exists x, (k ++ k'). split; [reflexivity|]. apply g_enclosed; auto.
    - intros Z. split; auto. }
  destruct t as [c|n|i|i|s]; try (apply A; exact Logic.I).
  - destruct c; try (apply A; exact Logic.I). clear A. pose proof (conj O Logic.I) as O1. outs. vstep. destruct D as ((x & k & -> & D) & D2 & ->). pose proof (G_links _ _ _ _ _ D) as L.
    destruct L as (x' & k' & E & Tx & Fk). injection E as <- <-. outs.
    assert (Sm : quiet (NDirect abs) fl -> S' = S) by (intros Z; apply (G_same _ _ _ _ _ D); exact Z).
    destruct abs.
    + rewrite (Sm (or_introl eq_refl)) in *. destruct k as [|m k].
      * cbn [declarator_tree]. cbn in Tx. rewrite Tx. cbn [node ast_type]. rewrite asttype_eqb_refl. st. eapply V_weaken; [apply (s_end_none d); exact (proj1 O1)|].
        intros o ts' S'' fl' (-> & -> & C). destruct o as [a|]; [|cbn; auto]. destruct C as (us' & k' & E & -> & D'). exists us'. split; [exact E|]. split; [|split; [|reflexivity]].
        -- exists (node AST_ABS_DECLOR []), k'. split; [reflexivity|]. apply g_no_name; [exact D'|]. destruct us' as [|u us']; [exact Logic.I|]. cbn in E. injection E as <- E.
           destruct us' as [|[]]; try exact Logic.I. cbn. specialize (D2 eq_refl). rewrite E in D2. exact D2.
        -- intros _. rewrite <- E. exact Logic.I.
      * pose proof (tree_not_terminal true x (m :: k) Fk ltac:(discriminate)) as Q. cbn [terminal_type] in Q. rewrite Q. vstep.
        pose proof (tree_find true x (m :: k) Tx Fk ltac:(discriminate)) as Q'. cbn [terminal_type] in Q'. rewrite Q'. cbn [bind]. apply B; auto. discriminate.
    + vstep. destruct k as [|m k].
      * cbn [declarator_tree]. pose proof Tx as [n ->]. cbn [named ast_type]. rewrite asttype_eqb_refl. eapply V_weaken; [apply (s_end_none d); exact O|].
        intros o ts' S'' fl' (-> & -> & C). destruct o as [a|]; [|cbn; auto]. destruct C as (us' & k' & -> & -> & D'). read (TTok LParen :: us ++ TTok RParen :: us').
        split; [|split; [discriminate|reflexivity]]. exists (named AST_IDENT_DECLOR n), k'. split; [reflexivity|]. apply (g_enclosed S false fl us _ [] us' k'); auto. discriminate.
      * pose proof (tree_not_terminal false x (m :: k) Fk ltac:(discriminate)) as Q. cbn [terminal_type] in Q. rewrite Q.
        pose proof (tree_find false x (m :: k) Tx Fk ltac:(discriminate)) as Q'. cbn [terminal_type] in Q'. rewrite Q'. cbn [bind]. apply B; auto. discriminate.
  - clear A B. destruct abs; [vstep|]. outs. st.
    assert (E : (if fl then mkpst r (n :: S) fl else mkpst r S fl) = mkpst r (if fl then n :: S else S) fl) by (destruct fl; reflexivity). rewrite E. clear E.
    eapply V_weaken; [apply (s_end_none d); exact O|]. intros o ts' S'' fl' (-> & -> & C). destruct o as [a|].
    + destruct C as (us & k & -> & -> & D). read (TIdent n :: us). split; [|split; [discriminate|reflexivity]]. exists (named AST_IDENT_DECLOR n), k. split; [reflexivity|].
      apply g_name. exact D.
    + cbn. intros [Z|Z]; [discriminate|]. subst fl. auto.
Qed.
Lemma s_declor d abs ts S fl : typedefs_outside d ts -> V (claim d (NDeclor abs) ts S fl) (parse_declor (parse f) abs (mkpst ts S fl)).
Proof.
  intros O. unfold parse_declor. vstep. destruct (ctype_eqb (ttype t) Asterisk) eqn:E.
  - tok E t. unfold parse_pointer. st. destruct (pointer_loop r (new_ast AST_PTR_DECLOR [])) as [[p r']| | | |] eqn:P; try (intros o ? ? ? Z; discriminate Z).
    apply (pointer_loop_inv r 0) in P. destruct P as (n & -> & ->). cbn [bind]. rewrite Nat.add_0_r. apply out_stars in O. vstep. destruct D as ((x & k & -> & D) & D2 & ->).
    pose proof (G_links _ _ _ _ _ D) as L. destruct L as (x' & k' & E & Tx & Fk). injection E as <- <-.
    assert (R : claim d (NDeclor abs) (TTok Asterisk :: repeat (TTok Asterisk) n ++ us ++ r) S fl (Some (declarator_tree x (k ++ repeat (node AST_PTR_DECLOR []) (Datatypes.S n)))) r S' fl).
    { read (repeat (TTok Asterisk) (Datatypes.S n) ++ us). split; [|split; [intros _; exact Logic.I|reflexivity]].
      exists x, (k ++ repeat (node AST_PTR_DECLOR []) (Datatypes.S n)). split; [reflexivity|]. apply g_declor. exact D. }
    rewrite tree_app in R. rewrite <- ptrs_attach in R. destruct k as [|m k].
    + cbn [declarator_tree] in *. rewrite (termish_type abs x Tx), asttype_eqb_refl. vstep. exact R.
    + rewrite (tree_not_terminal abs x (m :: k) Fk ltac:(discriminate)), (tree_replace abs x (m :: k) _ Tx Fk ltac:(discriminate)). cbn [bind]. vstep. exact R.
  - vstep. call. destruct D as ((x & k & -> & D) & D2 & ->). read us. split; [|auto]. exists x, k. split; [reflexivity|].
    pose proof (g_declor S abs fl 0 us x k S' D) as W. cbn in W. rewrite app_nil_r in W. exact W.
Qed.
Lemma s_param_list d acc ts S fl : typedefs_outside d ts -> d <> 0 -> V (claim d (NParamList acc) ts S fl) (parse_param_list (parse f) acc (mkpst ts S fl)).
Proof.
  intros O N. unfold parse_param_list. vstep. keep D. vstep. destruct (ctype_eqb (ttype t) Comma) eqn:E.
  - tok E t. vstep. call. keep D. destruct D1 as (l & -> & D1). read (us ++ TTok Comma :: us0). split; auto. exists (a :: l). split; [rewrite <- app_assoc; reflexivity|]. apply g_params_more; auto.
  - vstep. read us. split; auto. exists [a]. split; [reflexivity|]. apply g_params. exact D0.
Qed.
Lemma s_param_decl d ts S fl : typedefs_outside d ts -> d <> 0 -> V (claim d NParamDecl ts S fl) (parse_param_decl (parse f) (mkpst ts S fl)).
Proof.
  intros O N. unfold parse_param_decl. st. vstep. call; [|vstep]. destruct D as ((l & -> & D & -> & D2) & D3 & ->). destruct D as [D|(_ & _ & D)]; [|congruence]. outs.
  specialize (D2 N). rewrite D2. cbn [orb]. st. vstep.
  intros [a|] r' S' fl' C.
  - destruct C as (us' & -> & (x & k & -> & D') & _ & ->). vstep. pose proof (G_same _ _ _ _ _ D' (or_intror eq_refl)) as ->. read (us ++ us'). split; auto.
    apply (g_param S false); auto. eapply no_specifier_app; eauto.
  - cbn in C. destruct (C (or_intror eq_refl)) as [-> ->]. st. vstep. call; [|vstep]. destruct D0 as ((x & k & -> & D') & _ & ->). vstep. pose proof (G_same _ _ _ _ _ D' (or_intror eq_refl)) as ->. read (us ++ us0). split; auto.
    apply (g_param S true); auto. eapply no_specifier_app; eauto.
Qed.
End Sound.
