(** Every phrase of the grammar is read by the parser, with the tree the grammar gives it. *)
From Verif Require Import Base LiteralModel LexerModel AstModel ParserModel ParserProofs TypeProofs Grammar GrammarProofs GrammarProofs2 GrammarProofs3.
Open Scope nat_scope.

Lemma reads_operand lv S us b S' rest fl : reads (operand_of (lev lv)) S us [b] S' -> stops 13 rest -> stops (lev lv + 3) rest ->
  run (operand lv) (us ++ rest) S fl (Some b, mkpst rest S fl).
Proof.
  intros R T H. destruct lv; cbn [lev operand operand_of reads one hd] in *;
  first [ apply (proj1 (R rest fl T)); [reflexivity | eapply stops_le; [|exact H]; cbn; lia | apply tail_stop; exact H]
        | exact (proj1 (R rest fl T) []) ].
Qed.
Lemma reads_guess lv S us b S' rest fl : reads (operand_of (lev lv)) S us [b] S' -> stops 13 rest -> no_assign rest -> guess (us ++ rest) S fl.
Proof. intros R T N. destruct lv; cbn [lev operand_of reads] in R; exact (proj2 (R rest fl T) N). Qed.
Lemma lev_of k : 1 <= k <= 10 -> exists lv, lev lv = k.
Proof.
  intros H. destruct k as [|[|[|[|[|[|[|[|[|[|[|k]]]]]]]]]]]; try (exfalso; lia);
  [exists LLor|exists LLand|exists LOr|exists LXor|exists LAnd|exists LEq|exists LRel|exists LShift|exists LAdd|exists LMul]; reflexivity.
Qed.
Lemma lev_inj l l' : lev l = lev l' -> l = l'.
Proof. destruct l, l'; cbn; congruence. Qed.
Lemma acc_more (A : Type) (acc : list A) a l : acc ++ a :: l = (acc ++ [a]) ++ l.
Proof. now rewrite <- app_assoc. Qed.
Lemma spec_qual_stop S acc rest fl : spec_stop S rest -> acc <> [] -> run (NSpecQual acc) rest S fl (Some (node AST_SPEC_QUAL_LIST acc), mkpst rest S false).
Proof.
  intros H N. destruct rest as [|t r]; [destruct H|]. destruct H as [H _]. evs. unfold parse_spec_qual. toks.
  destruct (is_type_specifier S t) eqn:E; [exfalso; apply H, begins_ok; now rewrite E, orb_true_r|].
  destruct acc; [congruence|]. apply ev_pok.
Qed.
Lemma decl_specs_stop S acc b rest fl : spec_stop S rest -> acc <> [] -> run (NDeclSpecs acc b) rest S fl (Some (node AST_DECL_SPECS acc), mkpst rest S b).
Proof.
  intros H N. destruct rest as [|t r]; [destruct H|]. destruct H as [H _]. evs. unfold parse_decl_specs. toks.
  destruct (is_storage_class t) eqn:E0; [exfalso; apply H, begins_ok; now rewrite E0|].
  destruct (is_type_specifier S t) eqn:E; [exfalso; apply H, begins_ok; now rewrite E, orb_true_r|].
  destruct acc; [congruence|]. apply ev_pok.
Qed.
Lemma type_not_storage S t : type_first S t -> is_storage_class t = false.
Proof. intros [_ H]. unfold is_storage_class. apply ctype_eqb_neq. destruct t; cbn; congruence. Qed.
Lemma begins_not_brace S t : begins_specifier S t -> ttype t <> LBrace.
Proof. destruct t as [[]| | | |]; cbn; congruence || intros []. Qed.
Lemma snoc_not_nil (A : Type) (l : list A) a : l ++ [a] <> [].
Proof. destruct l; discriminate. Qed.
Lemma name_spec_stop S us rest : (exists t r, us = t :: r /\ name_first t) -> no_specifier S us -> spec_stop S (us ++ rest).
Proof. intros (t & r & -> & F) N. cbn in *. split; [exact N|]. intros ->. exact F. Qed.
Lemma abs_spec_stop S us rest : (us = [] \/ exists t r, us = t :: r /\ abs_first t) -> item_stop rest -> no_specifier S us -> spec_stop S (us ++ rest).
Proof.
  intros [->|(t & r & -> & F)] R N; cbn in *.
  - destruct rest as [|[[]| | | |] rest]; try destruct R; cbn; (split; [auto|discriminate]).
  - split; [exact N|]. intros ->. exact F.
Qed.

Lemma spec_tree S ts a l S' : G TypeSpec S ts [a] S' -> is_typedef (a :: l) = is_typedef l.
Proof. inversion 1; subst; op_cases; reflexivity. Qed.
Lemma item_declor rest : item_stop rest -> declor_stop rest.
Proof. destruct rest as [|[[]| | | |] ?]; cbn; auto. Qed.
(** a keyword that begins a parameter is no declarator, or an empty abstract one *)
Definition spec_word (t : token) : Prop := match t with TTok (KwVoid | KwChar | KwInt | KwLong | KwUnsigned | KwStruct | KwEnum | KwTypedef) => True | _ => False end.
Lemma word_abs S fl t r : spec_word t -> run (NDeclor true) (t :: r) S fl (Some (node AST_ABS_DECLOR []), mkpst (t :: r) S fl).
Proof.
  intros W. destruct t as [[]| | | |]; try (exfalso; exact W); (evs; unfold parse_declor; toks; evs; unfold parse_direct; toks; unfold direct_end;
  eapply ev_ptry; [evs; unfold parse_suffixes; toks; apply ev_pok|]; apply ev_pok).
Qed.
Lemma word_refused S fl t r : spec_word t -> run (NDeclor false) (t :: r) S fl (None, mkpst (t :: r) S fl).
Proof.
  intros W. destruct t as [[]| | | |]; try (exfalso; exact W); (evs; unfold parse_declor; toks; evs; unfold parse_direct; toks; apply ev_perr).
Qed.
Lemma leading_word S ts l S' : G Suffixes S ts l S' -> no_leading_name ts -> ts = [] \/ (exists r, ts = TTok LBracket :: r) \/ exists t r, ts = TTok LParen :: t :: r /\ spec_word t.
Proof.
  intros H N. inversion H; subst; [now left|right; left; eauto|].
  match goal with K : G Params _ _ _ _ |- _ => destruct (G_first _ _ _ _ _ K) as (t & r & -> & F) end.
  right. right. cbn [app]. do 2 eexists. split; [reflexivity|]. destruct t as [[]| | | |]; cbn in *; auto.
Qed.

Ltac fst_of H := destruct (G_first _ _ _ _ _ H) as (?t & ?r & ?E & ?F).
Ltac try1 H := eapply ev_ptry; [apply H|]; toks.
Ltac small := cbn [stops power ttype no_assign assign_op]; (lia || reflexivity).

Ltac stmt X := evs; unfold parse_stmt; toks; evs; unfold X, parse_expr; toks.

(** the first part of a for statement is a declaration or an expression statement *)
Definition headed (ts : list token) : token := hd (TTok CtEOF) ts.
Lemma peek_for N S ts l S' : N = ExprStmt \/ N = Decl false -> G N S ts l S' -> forall r fl, Ev (fun _ => peek (mkpst (ts ++ r) S fl)) (headed ts).
Proof. intros [-> | ->] H r fl; destruct (G_first _ _ _ _ _ H) as (t & u & -> & F); apply ev_ret. Qed.
Lemma for_init N S ts l : N = ExprStmt \/ N = Decl false -> G N S ts l S -> reads N S ts l S -> forall r fl,
  Ev (fun f => if item_may_decl (mkpst (ts ++ r) S fl) (headed ts) then parse f NDecl (mkpst (ts ++ r) S fl) else parse f NExprStmt (mkpst (ts ++ r) S fl))
    (Some (one l), mkpst r S fl).
Proof.
  intros [-> | ->] H R r fl; cbn [reads] in R; destruct (G_first _ _ _ _ _ H) as (t & u & -> & F); unfold item_may_decl; cbn [headed hd tdnames].
  - destruct (is_storage_class t || is_type_specifier S t) eqn:E; [|apply R].
    apply begins_ok in E. exfalso. destruct F as [F|F]; [now apply (expr_not_spec S t)|]. subst t. exact E.
  - apply begins_ok in F. rewrite F. apply R.
Qed.

Lemma G_reads N S ts l S' : G N S ts l S' -> reads N S ts l S'.
Proof.
  induction 1; try (unfold reads in *; cbn [one hd tree_of] in *); intros; repeat rewrite <- ?app_assoc, <- ?app_comm_cons in *; cbn [app] in *.
  - evs. unfold parse_primary. toks. rewrite is_typedef_name_out by exact H. apply ev_pok.
  - evs. unfold parse_primary. toks. apply ev_pok.
  - evs. unfold parse_primary. toks. apply ev_pok.
  - evs. unfold parse_primary. toks. apply ev_pok.
  - evs. unfold parse_primary, parse_expr. toks. eapply ev_ptry; [apply (IHG _ _ []); small|]. toks. apply ev_pok.
  - evs. try1 IHG. exact H0.
  - apply IHG1. evs. unfold parse_postfix_tail, parse_expr. toks. eapply ev_ptry; [apply (IHG2 _ _ []); small|]. toks. exact H1.
  - apply IHG1. evs. unfold parse_postfix_tail, parse_expr. toks. try1 IHG2. exact H1.
  - op_cases; (apply IHG; evs; unfold parse_postfix_tail, member_name; toks; assumption).
  - op_cases; (apply IHG; evs; unfold parse_postfix_tail, member_name; toks; assumption).
  - evs. unfold parse_args. toks. apply ev_pok.
  - fst_of H. subst ts. evs. unfold parse_args. cbn [app]. toks.
    rewrite (ctype_eqb_neq (ttype t) RParen) by (destruct t as [[]| | | |]; cbn in *; congruence || contradiction). apply (IHG []).
  - evs. unfold parse_args_tail. eapply ev_ptry; [apply (IHG _ _ []); small|]. toks. apply ev_pok.
  - evs. unfold parse_args_tail. eapply ev_ptry; [apply (IHG1 _ _ []); small|]. toks. rewrite (acc_more _ acc _ l). apply IHG2.
  - assert (K := IHG rest fl _ (postfix_stop S fl a rest H0)). fst_of H. destruct F as [F _]. subst ts. evs. unfold parse_unary. cbn [app] in *. toks.
    destruct t as [[]| | | |]; cbn in F; try (exfalso; exact F); exact K.
  - op_cases; (evs; unfold parse_unary; toks; evs; unfold parse_preinc; toks; eapply ev_ptry; [apply IHG; assumption|]; toks; apply ev_pok).
  - op_cases; (evs; unfold parse_unary; toks; evs; unfold parse_unary_op; toks; eapply ev_ptry; [apply (proj1 (IHG rest fl H1) [])|]; toks; apply ev_pok).
  - evs; unfold parse_unary; toks; evs; unfold parse_sizeof; toks. eapply ev_bind; [apply IHG; assumption|]. toks. apply ev_pok.
  - fst_of H. subst ts. evs; unfold parse_unary; toks; evs; unfold parse_sizeof; toks. cbn [app] in *. destruct F as [F _].
    eapply ev_bind; [apply paren_unary; exact F|]. toks. try1 IHG. apply ev_pok.
  - assert (K := IHG rest fl H0). fst_of H. destruct F as [F1 F2]. subst ts. split.
    + intros stack. evs. unfold parse_cast. cbn [app] in *. toks. destruct (ctype_eqb (ttype t) LParen) eqn:C; cbn [negb].
      * apply ctype_eqb_spec in C. assert (t = TTok LParen) as -> by (destruct t; cbn in C; congruence).
        specialize (F2 eq_refl). destruct r as [|u r]; [destruct F2|]. cbn [app] in *.
        eapply ev_bind; [apply not_type_name; exact F2|]. toks. unfold cast_end. try1 K. apply ev_pok.
      * unfold cast_end. try1 K. apply ev_pok.
    + intros N. exists (Some a), (mkpst rest S fl). repeat split; [exact K|]. right. exact N.
  - split.
    + intros stack. evs. unfold parse_cast. toks. eapply ev_bind; [apply IHG1|]. toks. exact (proj1 (IHG2 rest fl H1) (new_ast AST_CAST_EXPR [a] :: stack)).
    + intros N. fst_of H. subst ts. destruct F as [F _]. exists None, (mkpst (t :: r ++ TTok RParen :: us ++ rest) S fl).
      repeat split; [apply paren_unary; exact F|]. now left.
  - destruct (lev_of k H) as [l0 <-]. rename H1 into T. split.
    + intros lv r E St Rn. apply lev_inj in E. subst lv. evs. unfold parse_level. eapply ev_ptry; [apply (reads_operand l0 _ _ _ _ _ _ IHG T St)|]. exact Rn.
    + intros N. exact (reads_guess l0 _ _ _ _ _ _ IHG T N).
  - rename H2 into T. assert (K : 1 <= k <= 10) by (clear -H; op_cases; lia).
    destruct (lev_of k K) as [l0 E0]. destruct (level_op_some l0 k t ty H E0) as [Lo Po]. subst k.
    assert (stops 13 (TTok t :: us ++ rest)) as T' by (cbn; lia). split.
    + intros lv r E St Rn. apply lev_inj in E. subst lv. apply (proj1 (IHG1 _ fl T')); [reflexivity|cbn; lia|].
      evs. unfold parse_tail. toks. rewrite Lo. eapply ev_ptry; [apply (reads_operand l0 _ _ _ _ _ _ IHG2 T St)|]. exact Rn.
    + intros N. apply (proj2 (IHG1 _ fl T')). cbn. apply assign_op_none. lia.
  - split.
    + intros St. evs. unfold parse_cond. eapply ev_ptry.
      { apply (proj1 (IHG rest fl H0)) with (lv := LLor); [reflexivity| |]; [eapply stops_le; [|exact St]; lia|].
        apply tail_stop. eapply stops_le; [|exact St]. cbn; lia. }
      destruct rest as [|t r]; [destruct St|]. toks.
      rewrite (ctype_eqb_neq (ttype t) Question) by (intros E; cbn in St; rewrite E in St; cbn in St; lia). apply ev_pok.
    + intros N. exact (proj2 (IHG rest fl H0) N).
  - assert (T : stops 13 (TTok Question :: us ++ TTok Colon :: vs ++ rest)) by small. split.
    + intros St. evs. unfold parse_cond, parse_expr. eapply ev_ptry.
      { apply (proj1 (IHG1 _ fl T)) with (lv := LLor); [reflexivity|small|]. apply tail_stop. cbn; lia. }
      toks. eapply ev_ptry; [apply (IHG2 _ _ []); small|]. toks. eapply ev_ptry; [apply (IHG3 rest fl H2); exact St|]. apply ev_pok.
    + intros N. apply (proj2 (IHG1 _ fl T)). reflexivity.
  - destruct (IHG rest fl) as [A B]; [eapply stops_le; [|exact H0]; lia|].
    assert (N : no_assign rest) by (destruct rest; [destruct H0|]; cbn in *; apply assign_op_none; lia).
    destruct (B N) as (o & [ts' S' fl'] & R & E1 & E2 & O). cbn in E1, E2, O. subst S' fl'. evs. unfold parse_assign.
    eapply ev_bind; [exact R|]. unfold assign_end.
    assert (K : Ev (fun f => pbind (parse f NCond (mkpst (ts ++ rest) S fl)) (fun a st => pok (pop_stack stack a) st)) (Some (pop_stack stack a), mkpst rest S fl)).
    { eapply ev_ptry; [apply A; eapply stops_le; [|exact H0]; lia|]. apply ev_pok. }
    destruct o as [u|]; [|exact K]. destruct O as [O|O]; [discriminate|]. destruct ts' as [|t' ts']; [destruct O|]. toks. cbn in O. rewrite O. exact K.
  - destruct (assign_op_some t ty H0) as [Ao Po]. evs. unfold parse_assign. eapply ev_bind; [apply IHG1; cbn; lia|]. toks. rewrite Ao.
    exact (IHG2 rest fl (new_ast ty [a] :: stack) H2).
  - op_cases; (evs; unfold parse_type_spec; toks; apply ev_pok).
  - evs. unfold parse_type_spec. toks. rewrite (proj2 (is_typedef_name_in S n) H). apply ev_pok.
  - destruct rest as [|t r]; [destruct H|]. evs; unfold parse_type_spec; toks. evs; unfold parse_struct, parse_tagged; toks. apply ev_pok.
  - evs; unfold parse_type_spec; toks. evs; unfold parse_struct, parse_tagged; toks. try1 (IHG []). apply ev_pok.
  - evs; unfold parse_type_spec; toks. evs; unfold parse_struct, parse_tagged; toks. try1 (IHG []). apply ev_pok.
  - destruct rest as [|t r]; [destruct H|]. evs; unfold parse_type_spec; toks. evs; unfold parse_enum, parse_tagged; toks. apply ev_pok.
  - evs; unfold parse_type_spec; toks. evs; unfold parse_enum, parse_tagged; toks. try1 (IHG []). apply ev_pok.
  - evs; unfold parse_type_spec; toks. evs; unfold parse_enum, parse_tagged; toks. try1 (IHG []). apply ev_pok.
  - fst_of H. subst ts. assert (K := IHG rest fl). evs. unfold parse_spec_qual. cbn [app] in *. toks. rewrite (proj1 (type_first_ok S t) F).
    eapply ev_ptry; [apply K|]. { destruct rest as [|u v]; [destruct H0|]. destruct H0 as [_ H0]. intros E. apply H0. destruct u; cbn in E; congruence. }
    toks. apply spec_qual_stop; [exact H0|apply snoc_not_nil].
  - fst_of H. subst ts. fst_of H0. subst us. assert (K := IHG1 ((t0 :: r0) ++ rest) fl). evs. unfold parse_spec_qual. cbn [app] in *. toks. rewrite (proj1 (type_first_ok S t) F).
    eapply ev_ptry; [apply K; exact (begins_not_brace S t0 (proj1 F0))|]. toks. rewrite (acc_more _ acc _ l). apply IHG2. exact H1.
  - fst_of H. subst ts. assert (K := IHG rest fl). evs. unfold parse_decl_specs. cbn [app] in *. toks. rewrite (type_not_storage S t F), (proj1 (type_first_ok S t) F).
    eapply ev_ptry; [apply K|]. { destruct rest as [|u v]; [destruct H0|]. destruct H0 as [_ H0]. intros E. apply H0. destruct u; cbn in E; congruence. }
    toks. rewrite (spec_tree _ _ _ [] _ H). cbn [is_typedef existsb]. rewrite orb_false_r. apply decl_specs_stop; [exact H0|apply snoc_not_nil].
  - fst_of H. subst ts. fst_of H0. subst us. assert (K := IHG1 ((t0 :: r0) ++ rest) fl). evs. unfold parse_decl_specs. cbn [app] in *. toks.
    rewrite (type_not_storage S t F), (proj1 (type_first_ok S t) F).
    eapply ev_ptry; [apply K; exact (begins_not_brace S t0 F0)|]. toks. rewrite (acc_more _ acc _ l), (spec_tree _ _ _ l _ H). apply IHG2. exact H1.
  - evs. unfold parse_decl_specs. toks. change (is_storage_class (TTok KwTypedef)) with true. toks. change (b || is_typedef [node AST_STG_TYPEDEF []]) with (b || true). rewrite orb_true_r.
    apply decl_specs_stop; [exact H|apply snoc_not_nil].
  - evs. unfold parse_decl_specs. toks. change (is_storage_class (TTok KwTypedef)) with true. toks. change (b || is_typedef (node AST_STG_TYPEDEF [] :: l)) with (b || true). rewrite orb_true_r.
    rewrite (acc_more _ acc _ l). apply (IHG _ true). exact H0.
  - assert (SS : spec_stop S (us ++ TTok RParen :: rest)) by (apply abs_spec_stop; [exact (G_first _ _ _ _ _ H0)|exact I|exact H1]).
    evs. unfold parse_type_name. eapply ev_bind; [apply (IHG1 [] _ fl SS)|]. toks. eapply ev_bind; [apply (proj1 (IHG2 (TTok RParen :: rest) I))|]. toks. apply ev_pok.
  - evs. unfold parse_struct_decl_list. eapply ev_ptry; [apply IHG; discriminate|]. toks. apply ev_pok.
  - fst_of H0. subst us. evs. unfold parse_struct_decl_list. eapply ev_ptry; [apply IHG1; discriminate|]. cbn [app] in *. toks.
    rewrite (ctype_eqb_neq (ttype t) RBrace) by (destruct F as [F _]; destruct t as [[]| | | |]; cbn in *; congruence || contradiction). rewrite (acc_more _ acc _ l). apply IHG2.
  - assert (SS : spec_stop S (us ++ TTok Semicolon :: rest)) by (apply name_spec_stop; [exact (G_first _ _ _ _ _ H0)|exact H1]).
    evs. unfold parse_struct_decl. eapply ev_bind; [apply (IHG1 [] _ fl SS)|]. toks. eapply ev_bind; [apply (IHG2 [])|]. toks. apply ev_pok.
  - evs. unfold parse_struct_declor_list. eapply ev_ptry; [apply (proj1 (IHG (TTok Semicolon :: rest) I))|]. toks. apply ev_pok.
  - evs. unfold parse_struct_declor_list. eapply ev_ptry; [apply (proj1 (IHG1 (TTok Comma :: us ++ TTok Semicolon :: rest) I))|]. toks. rewrite (acc_more _ acc _ l). apply IHG2.
  - destruct rest as [|t r]; [destruct H|]. evs. unfold parse_enumor. toks.
    rewrite (ctype_eqb_neq (ttype t) Equal) by (intros E; cbn in H; rewrite E in H; cbn in H; lia). apply ev_pok.
  - evs. unfold parse_enumor, parse_constant_expr. toks. destruct (IHG rest fl) as [A _]; [eapply stops_le; [|exact H0]; lia|].
    eapply ev_ptry; [apply A; eapply stops_le; [|exact H0]; lia|]. apply ev_pok.
  - evs. unfold parse_enumor_list. eapply ev_ptry; [apply IHG; small|]. toks. apply ev_pok.
  - evs. unfold parse_enumor_list. eapply ev_ptry; [apply IHG; small|]. toks. apply ev_pok.
  - destruct (G_first _ _ _ _ _ H0) as (n & r & ->). evs. unfold parse_enumor_list. eapply ev_ptry; [apply IHG1; small|]. cbn [app] in *. toks. rewrite (acc_more _ acc _ l). apply IHG2.
  - (* pointers *)
    destruct (G_links _ _ _ _ _ H) as (x' & k' & E & T & F). injection E as <- <-. destruct (IHG rest H0) as [A B].
    assert (HD : match ts ++ rest with [] => False | t :: _ => ttype t <> Asterisk end).
    { assert (K := G_first _ _ _ _ _ H). destruct abs; cbn in K.
      - destruct K as [->|(t & r & -> & [-> | ->])]; cbn; try discriminate. destruct rest as [|[[]| | | |] ?]; cbn in *; try discriminate; auto.
      - destruct K as (t & r & -> & K). cbn. destruct t as [[]| | | |]; cbn in *; try discriminate; contradiction. }
    destruct n as [|n]; cbn [repeat app] in *.
    + rewrite app_nil_r. split.
      * evs. unfold parse_declor. destruct (ts ++ rest) as [|t r]; [destruct HD|]. toks. exact A.
      * intros Ea Et. destruct (B Ea Et) as (st & R & E1 & E2). exists st. split; [|auto].
        evs. unfold parse_declor. destruct (ts ++ rest) as [|t r]; [destruct HD|]. toks. exact R.
    + split.
      * evs. unfold parse_declor, parse_pointer. toks. change (new_ast AST_PTR_DECLOR []) with (ptrs 0). rewrite (pointer_loop_run n 0 _ HD), Nat.add_0_r. cbn [bind].
        toks. try1 A. destruct k as [|y k].
        -- cbn [declarator_tree]. rewrite (termish_type abs x T), asttype_eqb_refl, ptrs_attach. apply ev_pok.
        -- rewrite (tree_not_terminal abs x (y :: k) F ltac:(discriminate)), (tree_replace abs x (y :: k) _ T F ltac:(discriminate)). cbn [bind].
           rewrite ptrs_attach, <- tree_app. apply ev_pok.
      * intros Ea Et. destruct (B Ea Et) as (st & R & E1 & E2). exists st. split; [|auto].
        evs. unfold parse_declor, parse_pointer. toks. change (new_ast AST_PTR_DECLOR []) with (ptrs 0). rewrite (pointer_loop_run n 0 _ HD), Nat.add_0_r. cbn [bind].
        toks. apply ev_pfail. exact R.
  - (* identifier *)
    split; [|discriminate]. evs. unfold parse_direct. toks. unfold direct_end. subst S'.
    destruct td; (eapply ev_ptry; [apply (IHG [] _ _ H0)|]; cbn [ast_children node app]; rewrite chain_tree; apply ev_pok).
  - (* abstract *)
    assert (D : Ev (fun f => direct_end (parse f) true None (new_ast AST_ABS_DECLOR []) (mkpst (ts ++ rest) S td)) (Some (declarator_tree (node AST_ABS_DECLOR []) k), mkpst rest S td)).
    { unfold direct_end. eapply ev_ptry; [apply (IHG [] _ _ H1)|]. cbn [ast_children node app]. rewrite chain_tree. apply ev_pok. }
    destruct (leading_word _ _ _ _ H H0) as [->|[(r & ->)|(t & r & -> & W)]]; cbn [app] in *.
    + split.
      * evs. unfold parse_direct. destruct rest as [|[[]| | | |] rest]; try (exfalso; exact H1); toks; exact D.
      * intros _ _. destruct rest as [|[[]| | | |] rest]; try (exfalso; exact H1); (eexists; split; [evs; unfold parse_direct; toks; apply ev_perr|auto]).
    + split.
      * evs. unfold parse_direct. toks. exact D.
      * intros _ _. eexists; split; [evs; unfold parse_direct; toks; apply ev_perr|auto].
    + split.
      * evs. unfold parse_direct. toks. eapply ev_ptry; [apply word_abs; exact W|]. toks. cbn [ast_type node]. rewrite asttype_eqb_refl. exact D.
      * intros _ _. eexists; split; [evs; unfold parse_direct; toks; apply ev_pfail; apply word_refused; exact W|auto].
  - (* parentheses *)
    destruct (G_links _ _ _ _ _ H) as (x' & k'' & E & T & F). injection E as <- <-.
    assert (F' := G_links _ _ _ _ _ H1). cbn in F'. destruct (IHG1 (TTok RParen :: us ++ rest) I) as [A B].
    assert (D1 : Ev (fun f => direct_end (parse f) abs None x (mkpst (us ++ rest) S' td)) (Some (declarator_tree x k'), mkpst rest S' td)).
    { unfold direct_end. eapply ev_ptry; [apply (IHG2 [] _ _ H2)|]. cbn [ast_children node app]. rewrite chain_tree. apply ev_pok. }
    assert (D2 : k <> [] -> Ev (fun f => direct_end (parse f) abs (Some (declarator_tree x k)) x (mkpst (us ++ rest) S' td)) (Some (declarator_tree x (k ++ k')), mkpst rest S' td)).
    { intros N. unfold direct_end. eapply ev_ptry; [apply (IHG2 [] _ _ H2)|]. cbn [ast_children node app]. rewrite chain_tree, (tree_replace abs x k _ T F N). cbn [bind].
      rewrite tree_app. apply ev_pok. }
    destruct abs.
    + specialize (H0 eq_refl). split.
      * evs. unfold parse_direct. toks. try1 A. rewrite (tree_not_terminal true x k F H0 : asttype_eqb _ AST_ABS_DECLOR = false). toks.
        rewrite (tree_find true x k T F H0 : find_terminal AST_ABS_DECLOR _ = Ok x). cbn [bind]. exact (D2 H0).
      * intros _ Et. destruct (B eq_refl Et) as (st & R & E1 & E2). exists st. split; [|auto]. evs. unfold parse_direct. toks. apply ev_pfail. exact R.
    + split; [|discriminate]. evs. unfold parse_direct. toks. try1 A. destruct k as [|y k].
      * cbn [declarator_tree app]. rewrite (termish_type false x T). cbn [terminal_type]. rewrite asttype_eqb_refl. exact D1.
      * rewrite (tree_not_terminal false x (y :: k) F ltac:(discriminate) : asttype_eqb _ AST_IDENT_DECLOR = false).
        rewrite (tree_find false x (y :: k) T F ltac:(discriminate) : find_terminal AST_IDENT_DECLOR _ = Ok x). cbn [bind]. apply D2. discriminate.
  - evs. unfold parse_suffixes. destruct rest as [|[[]| | | |] rest]; try (exfalso; exact H); toks; rewrite app_nil_r; apply ev_pok.
  - evs. unfold parse_suffixes, parse_constant_expr. toks. destruct (IHG1 (TTok RBracket :: us ++ rest) fl ltac:(small)) as [A _]. eapply ev_ptry; [apply A; small|]. toks.
    rewrite (acc_more _ acc _ k). apply IHG2. exact H1.
  - evs. unfold parse_suffixes. toks. try1 (IHG1 []). rewrite (acc_more _ acc _ k). apply IHG2. exact H1.
  - evs. unfold parse_param_list. eapply ev_ptry; [apply IHG; exact I|]. toks. apply ev_pok.
  - evs. unfold parse_param_list. eapply ev_ptry; [apply IHG1; exact I|]. toks. rewrite (acc_more _ acc _ l). apply IHG2.
  - assert (SS : spec_stop S (us ++ rest)).
    { destruct abs; [apply abs_spec_stop|apply name_spec_stop]; auto; exact (G_first _ _ _ _ _ H1). }
    destruct (IHG2 rest (item_declor _ H3)) as [A B]. evs. unfold parse_param_decl. eapply ev_bind; [apply (IHG1 [] false _ fl SS)|]. rewrite H0. cbn [orb]. toks. destruct abs.
    + destruct (B eq_refl eq_refl) as ([ts' S' fl'] & R & E1 & E2). cbn in E1, E2. subst. eapply ev_bind; [exact R|]. toks. eapply ev_bind; [exact A|]. toks. apply ev_pok.
    + eapply ev_bind; [exact A|]. toks. apply ev_pok.
  - fst_of H. subst ts. assert (K := IHG rest fl [] H0). evs. unfold parse_init. cbn [app] in *. toks.
    rewrite (ctype_eqb_neq (ttype t) LBrace) by (destruct t as [[]| | | |]; cbn in *; congruence || contradiction). exact K.
  - evs. unfold parse_init. toks. try1 (IHG []). apply ev_pok.
  - evs. unfold parse_init_list. eapply ev_ptry; [apply IHG; small|]. toks. apply ev_pok.
  - evs. unfold parse_init_list. eapply ev_ptry; [apply IHG; small|]. toks. apply ev_pok.
  - fst_of H0. subst us. evs. unfold parse_init_list. eapply ev_ptry; [apply IHG1; small|]. cbn [app] in *. toks.
    rewrite (ctype_eqb_neq (ttype t) RBrace) by (destruct F as [F|F]; [|subst; discriminate]; destruct t as [[]| | | |]; cbn in *; congruence || contradiction).
    rewrite (acc_more _ acc _ l). apply IHG2.
  - destruct (IHG rest (item_declor _ H0)) as [A _]. destruct rest as [|[[]| | | |] rest]; try (exfalso; exact H0); (split;
      [ evs; unfold parse_init_declor; try1 A; apply ev_pok | do 4 eexists; split; [exact A|]; split; [reflexivity|discriminate] ]).
  - destruct (IHG1 (TTok Equal :: us ++ rest) I) as [A _]. split.
    + evs; unfold parse_init_declor; try1 A. eapply ev_ptry; [apply IHG2|apply ev_pok]. destruct rest as [|[[]| | | |] rest]; try (exfalso; exact H1); small.
    + do 4 eexists; split; [exact A|]; split; [reflexivity|discriminate].
  - destruct (IHG (TTok Semicolon :: rest) I) as [A B]. split; [|exact B]. evs. unfold parse_init_declor_list. try1 A. apply ev_pok.
  - destruct (IHG1 (TTok Comma :: us ++ TTok Semicolon :: rest) I) as [A B]. split; [|exact B]. evs. unfold parse_init_declor_list. try1 A. rewrite (acc_more _ acc _ l). apply IHG2.
  - assert (SS : spec_stop S (TTok Semicolon :: rest)) by (split; [cbn; auto|discriminate]). split.
    + evs. unfold parse_decl. eapply ev_bind; [apply (IHG [] false _ fl SS)|]. toks. apply ev_pok.
    + unfold may, may_function_definition. eapply ev_bind; [apply (IHG [] false _ fl SS)|]. toks. eapply ev_bind; [evs; unfold parse_declor; toks; evs; unfold parse_direct; toks; apply ev_perr|].
      cbn. apply ev_ret.
  - assert (SS : spec_stop S (us ++ TTok Semicolon :: rest)) by (apply name_spec_stop; [exact (G_first _ _ _ _ _ H0)|exact H1]).
    destruct (IHG2 [] rest) as [A (d & st & t & r & B1 & B2 & B3)]. split.
    + evs. unfold parse_decl. eapply ev_bind; [apply (IHG1 [] false _ fl SS)|]. toks.
      fst_of H0. subst us. cbn [app] in *. toks. rewrite (ctype_eqb_neq (ttype t0) Semicolon) by (destruct t0 as [[]| | | |]; cbn in *; congruence || contradiction).
      eapply ev_bind; [exact A|]. toks. apply ev_pok.
    + unfold may, may_function_definition. eapply ev_bind; [apply (IHG1 [] false _ fl SS)|]. toks. eapply ev_bind; [exact B1|]. unfold peek. rewrite B2. cbn [bind]. rewrite (ctype_eqb_neq _ _ B3). apply ev_ret.
  - fst_of H. subst ts. assert (K := IHG (TTok Semicolon :: rest) fl [] ltac:(small)). evs. unfold parse_expr_stmt, parse_expr. cbn [app] in *. toks.
    rewrite (ctype_eqb_neq (ttype t) Semicolon) by (destruct t as [[]| | | |]; cbn in *; congruence || contradiction). try1 K. apply ev_pok.
  - evs. unfold parse_expr_stmt. toks. apply ev_pok.
  - assert (K := IHG rest fl). fst_of H. subst ts. evs. unfold parse_stmt. cbn [app] in *. toks.
    destruct F as [F|F]; [|subst t; exact K]. destruct t as [[]| | | |]; cbn [ttype]; try (exfalso; exact F); exact K.
  - assert (K := IHG rest fl). destruct (G_first _ _ _ _ _ H) as (r & ->). evs. unfold parse_stmt. cbn [app] in *. toks. exact K.
  - stmt parse_case. eapply ev_ptry; [apply (IHG1 _ _ []); small|]. toks. eapply ev_ptry; [apply IHG2; assumption|]. apply ev_pok.
  - stmt parse_default. eapply ev_ptry; [apply IHG; assumption|]. apply ev_pok.
  - stmt parse_continue. apply ev_pok.
  - stmt parse_break. apply ev_pok.
  - stmt parse_return. apply ev_pok.
  - fst_of H. subst ts. assert (K := IHG (TTok Semicolon :: rest) fl [] ltac:(small)). cbn [app] in *. stmt parse_return.
    rewrite (ctype_eqb_neq (ttype t) Semicolon) by (destruct t as [[]| | | |]; cbn in *; congruence || contradiction). try1 K. apply ev_pok.
  - stmt parse_if. eapply ev_ptry; [apply (IHG1 _ _ []); small|]. toks. eapply ev_ptry; [apply IHG2; assumption|]. destruct rest as [|t r]; [destruct H1|]. specialize (H1 eq_refl). toks. apply ev_pok.
  - stmt parse_if. eapply ev_ptry; [apply (IHG1 _ _ []); small|]. toks. eapply ev_ptry; [apply IHG2; cbn; congruence|]. toks. eapply ev_ptry; [apply IHG3; assumption|]. toks. apply ev_pok.
  - stmt parse_switch. eapply ev_ptry; [apply (IHG1 _ _ []); small|]. toks. eapply ev_ptry; [apply IHG2; assumption|]. apply ev_pok.
  - stmt parse_while. eapply ev_ptry; [apply (IHG1 _ _ []); small|]. toks. eapply ev_ptry; [apply IHG2; assumption|]. apply ev_pok.
  - stmt parse_for. eapply ev_bind; [apply (peek_for N S is [i] S); eassumption|]. eapply ev_ptry; [apply (for_init N S is [i]); eassumption|]. toks.
    try1 IHG2. unfold for_body. eapply ev_ptry; [apply IHG3; assumption|]. apply ev_pok.
  - stmt parse_for. eapply ev_bind; [apply (peek_for N S is [i] S); eassumption|]. eapply ev_ptry; [apply (for_init N S is [i]); eassumption|]. toks.
    try1 IHG2. assert (K := IHG3 (TTok RParen :: us ++ rest) fl [] ltac:(small)). fst_of H2. subst ts. cbn [app] in *. toks.
    rewrite (ctype_eqb_neq (ttype t) RParen) by (destruct t as [[]| | | |]; cbn in *; congruence || contradiction). try1 K.
    unfold for_body. eapply ev_ptry; [apply IHG4; assumption|]. apply ev_pok.
  - evs. unfold parse_compound. toks. eapply ev_bind; [apply (IHG [])|]. toks. apply ev_ret.
  - evs. unfold parse_items. toks. rewrite app_nil_r. apply ev_pok.
  - assert (T : exists t r, ts = t :: r /\ ttype t <> RBrace).
    { destruct H as [-> | [-> | ->]]; destruct (G_first _ _ _ _ _ H0) as (t & r & -> & F); (do 2 eexists; split; [reflexivity|]);
      destruct t as [[]| | | |]; try discriminate; exfalso; repeat (destruct F as [F|F]); exact F. }
    assert (K : Ev (fun f => if item_may_decl (mkpst (ts ++ us ++ TTok RBrace :: rest) S fl) (headed ts)
                             then parse f NDecl (mkpst (ts ++ us ++ TTok RBrace :: rest) S fl) else parse f NStmt (mkpst (ts ++ us ++ TTok RBrace :: rest) S fl))
               (Some a, mkpst (us ++ TTok RBrace :: rest) S' fl)).
    { destruct H as [-> | [-> | ->]]; destruct (G_first _ _ _ _ _ H0) as (t & r & -> & F); unfold item_may_decl; cbn [headed hd tdnames].
      - assert (S' = S) as -> by (clear -H0; now inversion H0).
        destruct (is_storage_class t || is_type_specifier S t) eqn:E; [apply begins_ok in E; exfalso; exact (stmt_not_spec S t F E)|].
        apply IHG1. destruct (G_first _ _ _ _ _ H1) as [->|(u & v & -> & K)]; cbn; intros _; [discriminate|].
        destruct u as [[]| | | |]; cbn in K |- *; try discriminate. exfalso; destruct K as [[K|K]|K]; exact K.
      - apply begins_ok in F. rewrite F. apply IHG1.
      - apply begins_ok in F. rewrite F. apply IHG1. }
    destruct T as (t & r & -> & T). evs. unfold parse_items. cbn [app headed hd] in *. toks. eapply ev_ptry; [exact K|]. rewrite (acc_more _ acc _ l). apply IHG2.
  - assert (SS : spec_stop S (us ++ vs ++ rest)) by (apply name_spec_stop; [exact (G_first _ _ _ _ _ H0)|exact H1]).
    destruct (G_first _ _ _ _ _ H2) as (r & ->). destruct (IHG2 ((TTok LBrace :: r) ++ rest) I) as [A _]. exists true. split.
    + unfold may, may_function_definition. eapply ev_bind; [apply (IHG1 [] false _ fl SS)|]. toks. eapply ev_bind; [exact A|]. cbn [app]. toks. apply ev_ret.
    + evs. unfold parse_func_def. eapply ev_bind; [apply (IHG1 [] false _ fl SS)|]. toks. eapply ev_bind; [exact A|]. toks. try1 IHG3. apply ev_pok.
  - destruct (IHG rest fl) as [A B]. exists false. auto.
  - destruct (IHG (TTok CtEOF :: rest) fl) as (b & A & B). evs. unfold parse_trans_unit. eapply ev_bind; [exact A|].
    destruct b; (eapply ev_ptry; [exact B|]; toks; apply ev_pok).
  - destruct (IHG1 (us ++ TTok CtEOF :: rest) fl) as (b & A & B). destruct (G_first _ _ _ _ _ H0) as (t & r & -> & F).
    assert (ttype t <> CtEOF) by (destruct t as [[]| | | |]; cbn in *; congruence || contradiction).
    evs. unfold parse_trans_unit. eapply ev_bind; [exact A|]. cbn [app] in *.
    destruct b; (eapply ev_ptry; [exact B|]; toks; rewrite (acc_more _ acc _ l); apply IHG2).
Qed.

Lemma ended_snoc ts : ended (ts ++ [TTok CtEOF]).
Proof. induction ts as [|t ts IH]; cbn; [reflexivity|]. destruct (ts ++ [TTok CtEOF]) eqn:E; [destruct ts; discriminate E|exact IH]. Qed.
Theorem grammar_complete ts l S' : G Unit [] ts l S' -> parse_tokens (ts ++ [TTok CtEOF]) = Ok (Ast AST_TRAS_UNIT PNone l).
Proof. intros H. eapply ev_tokens; [apply ended_snoc|]. exact (G_reads _ _ _ _ _ H [] [] false). Qed.
