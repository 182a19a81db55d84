(** The parser is total on token lists that end with the end-of-file token: fuel suffices, no token
    beyond the end is read, and no fatal error is reached. *)
From Verif Require Import Base LiteralModel LexerModel AstModel ParserModel.
Open Scope nat_scope.

Lemma ctype_eqb_spec : forall a b, ctype_eqb a b = true <-> a = b.
Proof. intros a b. unfold ctype_eqb. destruct (ctype_eq_dec a b); split; intros; congruence. Qed.

(** Tokens remaining at a state: non-empty and ending with EOF. *)
Fixpoint ended (ts : list token) : Prop :=
  match ts with
  | [] => False
  | [t] => t = TTok CtEOF
  | _ :: r => ended r
  end.
Definition wf (st : pst) : Prop := ended (toks st).
Definition len (st : pst) : nat := length (toks st).

Definition strict (n : nt) : Prop :=
  match n with
  | NTail _ _ | NPostfixTail _ | NArgs | NSuffixes _ | NDeclor true | NDirect true
  | NDeclSpecs (_ :: _) _ | NSpecQual (_ :: _) => False
  | _ => True
  end.

Inductive ok_declor (ty : asttype) : ast -> Prop :=
| okd_term : forall a, asttype_eqb (ast_type a) ty = true -> ok_declor ty a
| okd_step : forall t p c r, ok_declor ty c -> ok_declor ty (Ast t p (c :: r)).

Definition post (n : nt) (a : ast) : Prop :=
  match n with
  | NDeclor abs | NDirect abs => ok_declor (terminal_type abs) a
  | _ => True
  end.

Definition pre (n : nt) (st : pst) : Prop :=
  match n with
  | NTypeSpec => exists t r, toks st = t :: r /\ is_type_specifier (tdnames st) t = true
  | NPreInc | NUnaryOp => exists t r, toks st = t :: r /\ ttype t <> CtEOF
  | _ => True
  end.

Definition level_rank (l : level) : nat :=
  match l with
  | LMul => 4 | LAdd => 5 | LShift => 6 | LRel => 7 | LEq => 8 | LAnd => 9 | LXor => 10 | LOr => 11
  | LLand => 12 | LLor => 13
  end.
Definition rank (n : nt) : nat :=
  match n with
  | NPostfix | NPreInc | NUnaryOp | NSizeof => 1
  | NUnary => 2
  | NCast _ => 3
  | NLevel l => level_rank l
  | NCond => 14
  | NAssign _ => 15
  | NArgsTail _ => 16
  | NArgs => 17
  | NInit => 16
  | NInitList _ => 17
  | NTypeSpec => 1
  | NDeclSpecs _ _ | NSpecQual _ => 2
  | NTypeName => 3
  | NDirect _ => 1
  | NDeclor _ => 2
  | NInitDeclor => 3
  | NInitDeclorList _ => 4
  | NStructDecl => 3
  | NStructDeclList _ => 4
  | NStructDeclorList _ => 3
  | NEnumorList _ => 1
  | NParamDecl => 3
  | NParamList _ => 4
  | NDecl | NFuncDef => 3
  | NExprStmt => 16
  | NStmt => 17
  | NItems _ => 18
  | NTransUnit _ => 4
  | _ => 0
  end.
Lemma rank_bound : forall n, rank n <= 18.
Proof. destruct n; cbn; try lia. destruct l; cbn; lia. Qed.

Definition post_state (n : nt) (st : pst) (o : option ast) (st' : pst) : Prop :=
  wf st' /\ len st' <= len st /\
  match o with
  | None => True
  | Some a => (strict n -> len st' < len st) /\ post n a
  end.
Definition total_at (f : nat) : Prop :=
  forall n st, wf st -> pre n st -> f > 32 * len st + rank n ->
    exists o st', parse f n st = Ok (o, st') /\ post_state n st o st'.

(** A weakest-precondition style predicate for outcomes. *)
Definition R (Q : option ast -> pst -> Prop) (r : pres) : Prop :=
  exists o st', r = Ok (o, st') /\ Q o st'.

Lemma R_ok : forall (Q : option ast -> pst -> Prop) a st, Q (Some a) st -> R Q (pok a st).
Proof. intros; unfold R, pok; eauto. Qed.
Lemma R_err : forall (Q : option ast -> pst -> Prop) st, Q None st -> R Q (perr st).
Proof. intros; unfold R, perr; eauto. Qed.
Lemma R_peek : forall (Q : option ast -> pst -> Prop) st k, wf st ->
  (forall t ts, toks st = t :: ts -> R Q (k t)) -> R Q (bind (peek st) k).
Proof.
  intros Q st k W H. unfold peek. unfold wf in W. destruct (toks st) as [|t ts] eqn:E; [destruct W|].
  cbn. eapply H; eauto.
Qed.
Lemma wf_advance : forall st t ts, wf st -> toks st = t :: ts -> ttype t <> CtEOF ->
  wf (advance st) /\ len (advance st) < len st.
Proof.
  intros st t ts W E NE. unfold wf, len, advance, with_toks in *. cbn. rewrite E in *. cbn.
  split; [|lia]. destruct ts; [|exact W]. cbn in W. subst t. cbn in NE. congruence.
Qed.
Lemma R_consume : forall (Q : option ast -> pst -> Prop) t st k, wf st -> t <> CtEOF -> Q None st ->
  (wf (advance st) -> len (advance st) < len st -> R Q (k (advance st))) -> R Q (consume t st k).
Proof.
  intros Q t st k W NE QN H. unfold consume. apply R_peek; [exact W|]. intros u us E.
  destruct (ctype_eqb (ttype u) t) eqn:C.
  - apply ctype_eqb_spec in C. destruct (wf_advance st u us W E) as [A B]; [congruence|]. auto.
  - apply R_err. exact QN.
Qed.
Lemma R_rec : forall f (T : total_at f) (Q : option ast -> pst -> Prop) n st k, wf st -> pre n st -> f > 32 * len st + rank n ->
  (forall o st', post_state n st o st' -> R Q (k (o, st'))) -> R Q (bind (parse f n st) k).
Proof.
  intros f T Q n st k W P F H. destruct (T n st W P F) as (o & st' & E & PS). rewrite E. cbn. apply H. exact PS.
Qed.
Lemma R_call : forall f (T : total_at f) (Q : option ast -> pst -> Prop) n st, wf st -> pre n st -> f > 32 * len st + rank n ->
  (forall o st', post_state n st o st' -> Q o st') -> R Q (parse f n st).
Proof.
  intros f T Q n st W P F H. destruct (T n st W P F) as (o & st' & E & PS). exists o, st'. auto.
Qed.
Lemma R_try : forall f (T : total_at f) (Q : option ast -> pst -> Prop) n st k, wf st -> pre n st -> f > 32 * len st + rank n ->
  (forall a st', post_state n st (Some a) st' -> R Q (k a st')) ->
  (forall st', post_state n st None st' -> Q None st') -> R Q (pbind (parse f n st) k).
Proof.
  intros f T Q n st k W P F H N. unfold pbind. apply R_rec with (1 := T); auto.
  intros [a|] st' PS; [apply H; exact PS | apply R_err; auto].
Qed.

Lemma wf_with_toks : forall st st0, wf st -> wf (with_toks st0 (toks st)).
Proof. intros; exact H. Qed.
Lemma wf_with_flag : forall st b, wf st -> wf (with_flag st b).
Proof. intros; exact H. Qed.
Lemma wf_with_names : forall st s, wf st -> wf (with_names st s).
Proof. intros; exact H. Qed.
Lemma len_with_flag : forall st b, len (with_flag st b) = len st. Proof. reflexivity. Qed.
Lemma len_with_names : forall st b, len (with_names st b) = len st. Proof. reflexivity. Qed.
Lemma len_with_toks : forall st st0, len (with_toks st0 (toks st)) = len st. Proof. reflexivity. Qed.

Lemma eqb_terminal_replace : forall ty f d, ok_declor ty d -> asttype_eqb (ast_type d) ty = false ->
  exists d', replace_terminal ty f d = Ok d' /\ ast_type d' = ast_type d /\
    ((forall x, ok_declor ty x -> ok_declor ty (f x)) -> ok_declor ty d').
Proof.
  intros ty f d H. induction H as [a E | t p c r H IH]; intros NE; [congruence|].
  cbn. destruct (asttype_eqb (ast_type c) ty) eqn:E.
  - eexists; split; [reflexivity|split;[reflexivity|]]. intros Hf. apply okd_step. apply Hf. now constructor.
  - destruct (IH eq_refl) as (d' & E1 & E2 & E3). rewrite E1. cbn. eexists; split; [reflexivity|split;[reflexivity|]].
    intros Hf. apply okd_step. auto.
Qed.
Lemma find_terminal_ok : forall ty d, ok_declor ty d -> asttype_eqb (ast_type d) ty = false ->
  exists x, find_terminal ty d = Ok x /\ asttype_eqb (ast_type x) ty = true.
Proof.
  intros ty d H. induction H as [a E | t p c r H IH]; intros NE; [congruence|].
  cbn. destruct (asttype_eqb (ast_type c) ty) eqn:E; eauto.
Qed.
Lemma ok_pointer_attach : forall ty p x, ok_declor ty x -> ok_declor ty (pointer_attach p x).
Proof.
  intros ty. fix IH 1. intros [t pl [|c r]] x H; cbn.
  - apply okd_step. exact H.
  - apply okd_step. apply IH. exact H.
Qed.
Lemma ok_chain : forall ty links x, ok_declor ty x -> ok_declor ty (chain links x).
Proof.
  intros ty links x H. induction links as [|l ls IH]; cbn; [exact H|]. apply okd_step. exact IH.
Qed.
(* replacing the terminal by something ok gives something ok *)
Lemma replace_terminal_ok : forall ty y d, ok_declor ty d -> asttype_eqb (ast_type d) ty = false ->
  ok_declor ty y -> exists d', replace_terminal ty (fun _ => y) d = Ok d' /\ ok_declor ty d'.
Proof.
  intros ty y d H NE Hy. destruct (eqb_terminal_replace ty (fun _ => y) d H NE) as (d' & E & _ & K).
  eauto.
Qed.

Lemma pointer_loop_ok : forall ts a, ended ts ->
  exists a' ts', pointer_loop ts a = Ok (a', ts') /\ ended ts' /\ length ts' <= length ts.
Proof.
  induction ts as [|t r IH]; intros a E; [destruct E|]. cbn.
  destruct (ctype_eqb (ttype t) Asterisk) eqn:C.
  - destruct r as [|u r'].
    + cbn in E. subst t. discriminate C.
    + destruct (IH (new_ast AST_PTR_DECLOR [a])) as (a' & ts' & E1 & E2 & E3); [exact E|].
      exists a', ts'. split; [exact E1|]. split; [exact E2|]. cbn in *. lia.
  - eauto.
Qed.

Lemma peek_type_spec : forall st t ts, toks st = t :: ts -> is_type_specifier (tdnames st) t = true -> pre NTypeSpec st.
Proof. intros; cbn; eauto. Qed.
Lemma type_spec_not_eof : forall s t, is_type_specifier s t = true -> ttype t <> CtEOF.
Proof. intros s t H. destruct t; cbn in *; try discriminate. destruct t; discriminate. Qed.
Lemma assign_op_not_eof : forall t a, assign_op t = Some a -> t <> CtEOF.
Proof. intros t a H E. subst t. discriminate. Qed.
Lemma level_op_not_eof : forall l t a, level_op l t = Some a -> t <> CtEOF.
Proof. intros l t a H E. subst t. destruct l; discriminate. Qed.
Lemma rank_operand : forall l, rank (operand l) < level_rank l.
Proof. destruct l; cbn; lia. Qed.

Ltac unpost :=
  repeat match goal with
  | H : post_state _ _ _ _ |- _ =>
    let W := fresh "W" in let L := fresh "L" in let S := fresh "S" in
    destruct H as (W & L & S); cbn [strict post] in S
  | H : (True -> _) /\ _ |- _ => let S := fresh "S" in destruct H as [S H]; specialize (S I)
  | H : (False -> _) /\ _ |- _ => destruct H as [_ H]
  end.
Ltac lens := cbn [rank level_rank operand]; repeat rewrite ?len_with_flag, ?len_with_names, ?len_with_toks in *; try lia.
Ltac wfs := solve [ assumption | apply wf_with_toks; assumption | apply wf_with_flag; assumption
                  | apply wf_with_names; assumption
                  | apply wf_with_toks; apply wf_with_flag; assumption ].
Ltac fin := repeat split; cbn [strict post]; try wfs; lens; auto; try exact I.
Ltac norm :=
  repeat match goal with
  | H : context [wf (advance (with_flag ?s ?b))] |- _ => change (wf (advance (with_flag s b))) with (wf (advance s)) in H
  | H : context [len (advance (with_flag ?s ?b))] |- _ => change (len (advance (with_flag s b))) with (len (advance s)) in H
  | |- context [advance (with_flag ?s ?b)] => change (advance (with_flag s b)) with (with_flag (advance s) b)
  end.
Ltac stepT T :=
  match goal with
  | |- R _ (bind (peek ?st) _) => apply R_peek; [wfs|]; intros ? ? ?
  | |- R _ (consume _ _ _) => apply R_consume; [wfs | discriminate | fin | intros ? ?; norm]
  | |- R _ (pbind (parse _ _ _) _) =>
      apply R_try with (1 := T); [wfs | try exact I | lens | intros ? ? ?; unpost | intros ? ?; unpost; fin ]
  | |- R _ (bind (parse _ _ _) _) =>
      apply R_rec with (1 := T); [wfs | try exact I | lens | intros [?|] ? ?; unpost ]
  | |- R _ (parse _ _ _) =>
      apply R_call with (1 := T); [wfs | try exact I | lens | intros [?|] ? ?; unpost; fin ]
  | |- R _ (pok _ _) => apply R_ok; fin
  | |- R _ (perr _) => apply R_err; fin
  | |- R _ (if ?b then _ else _) => destruct b eqn:?
  end.
Ltac adv :=
  match goal with
  | W : wf ?st, E : toks ?st = ?t :: ?ts |- context [advance ?st] =>
    let A := fresh "A" in let B := fresh "B" in
    assert (A : wf (advance st) /\ len (advance st) < len st)
      by (apply (wf_advance st t ts W E);
          solve [ discriminate
                | match goal with K : ctype_eqb (ttype t) _ = true |- _ => apply ctype_eqb_spec in K; rewrite K; discriminate end
                | match goal with K : negb (ctype_eqb (ttype t) _) = false |- _ => apply negb_false_iff in K; apply ctype_eqb_spec in K; rewrite K; discriminate end
                | match goal with K : is_storage_class t = true |- _ => apply ctype_eqb_spec in K; rewrite K; discriminate end
                | match goal with K : assign_op (ttype t) = Some _ |- _ => exact (assign_op_not_eof _ _ K) end
                | match goal with K : level_op _ (ttype t) = Some _ |- _ => exact (level_op_not_eof _ _ _ K) end
                | match goal with K : ttype t = _ |- _ => rewrite K; discriminate end
                | assumption ]);
    destruct A as [A B]
  end.

Section Total.
Variable f : nat.
Hypothesis T : total_at f.

Lemma assign_end_total : forall stack st st0, wf st -> f > 32 * len st + 14 -> len st <= len st0 ->
  R (post_state (NAssign stack) st0) (assign_end (parse f) stack st).
Proof. intros. unfold assign_end. stepT T. stepT T. Qed.

Lemma cast_end_total : forall stack st st0, wf st -> f > 32 * len st + 2 -> len st <= len st0 ->
  R (post_state (NCast stack) st0) (cast_end (parse f) stack st).
Proof. intros. unfold cast_end. stepT T. stepT T. Qed.

Lemma member_name_total : forall ty a a0 st st0, wf st -> f > 32 * len st + 18 -> len st <= len st0 ->
  R (post_state (NPostfixTail a0) st0) (member_name (parse f) ty a st).
Proof.
  intros. unfold member_name. stepT T. destruct t; try (stepT T; fail).
  adv. stepT T.
Qed.

Lemma tagged_total : forall ty tagty body st n st0, wf st -> f > 32 * len st + 18 -> len st < len st0 ->
  pre body st -> (n = NStruct \/ n = NEnum) -> (body = NStructDeclList [] \/ body = NEnumorList []) ->
  R (post_state n st0) (parse_tagged (parse f) ty tagty body st).
Proof.
  intros ty tagty body st n st0 W F L P N B. unfold parse_tagged. stepT T.
  assert (exists tag st1, (match t with
                    | TIdent n => ([new_identifier_ast tagty n], advance st)
                    | _ => ([], st)
                    end) = (tag, st1) /\ wf st1 /\ len st1 <= len st) as (tag & st1 & E & W1 & L1).
  { destruct t; try (do 2 eexists; split; [reflexivity|]; split; [exact W|lia]).
    adv. do 2 eexists; split; [reflexivity|]. split; [exact A|lia]. }
  rewrite E. stepT T. stepT T.
  - adv. destruct B as [-> | ->]; destruct N as [-> | ->]; (stepT T; stepT T; stepT T).
  - destruct tag; destruct N as [-> | ->]; stepT T.
Qed.

Lemma direct_end_total : forall abs e x st st0, wf st -> f > 32 * len st + 0 -> len st <= len st0 ->
  (abs = false -> len st < len st0) ->
  ok_declor (terminal_type abs) x ->
  match e with Some e => ok_declor (terminal_type abs) e /\ asttype_eqb (ast_type e) (terminal_type abs) = false | None => True end ->
  R (post_state (NDirect abs) st0) (direct_end (parse f) abs e x st).
Proof.
  intros abs e x st st0 W F L S X E. unfold direct_end. stepT T. 
  destruct e as [e|].
  - destruct E as [E1 E2].
    destruct (replace_terminal_ok _ (chain (ast_children a) x) e E1 E2) as (d & D1 & D2); [apply ok_chain; exact X|].
    rewrite D1. cbn [bind]. destruct abs; (apply R_ok; try specialize (S eq_refl); fin).
  - pose proof (ok_chain _ (ast_children a) x X). destruct abs; (apply R_ok; try specialize (S eq_refl); fin).
Qed.
Lemma for_body_total : forall i c s st st0, wf st -> f > 32 * len st + 18 -> len st < len st0 ->
  R (post_state NFor st0) (for_body (parse f) i c s st).
Proof. intros. unfold for_body. stepT T. stepT T. Qed.

Ltac adv1 :=
  norm;
  match goal with
  | |- context [advance ?st] => lazymatch goal with H : wf (advance st) |- _ => fail | _ => adv end
  | _ => idtac
  end.
Ltac go := repeat (try adv1; stepT T).
Lemma body_total : forall n st, wf st -> pre n st -> S f > 32 * len st + rank n ->
  R (post_state n st) (body (parse f) n st).
Proof.
  intros n st W P F. destruct n; cbn [body]; cbn [rank] in F.
  - (* NTransUnit *)
    unfold parse_trans_unit, may_function_definition.
    assert (exists m, (do r <- parse f (NDeclSpecs [] false) st;
       match r with
       | (Some _, st') => do r0 <- parse f (NDeclor false) st';
           match r0 with
           | (Some _, st'') => do t <- peek st''; Ok (Some (ctype_eqb (ttype t) LBrace))
           | (None, _) => Ok (Some false) end
       | (None, _) => Ok None end) = Ok m) as (m & E).
    { destruct (T (NDeclSpecs [] false) st W I) as (o & st1 & E1 & P1); [lens|]. rewrite E1. cbn [bind]. unpost.
      destruct o as [a|]; [|eauto]. unpost.
      destruct (T (NDeclor false) st1 W0 I) as (o & st2 & E2 & P2); [lens|]. rewrite E2. cbn [bind]. unpost.
      destruct o as [a2|]; [|eauto]. unfold peek. unfold wf in W1. destruct (toks st2); [destruct W1|]. cbn [bind]. eauto. }
    rewrite E. cbn [bind]. destruct m as [b|]; [|stepT T].
    destruct b; go.
  - (* NFuncDef *) unfold parse_func_def. go.
  - (* NDecl *) unfold parse_decl. go.
  - (* NTypeName *) unfold parse_type_name. go.
  - (* NDeclSpecs *) unfold parse_decl_specs. stepT T. stepT T; [|stepT T].
    + adv1. go.
    + stepT T; [eapply peek_type_spec; eauto|]. go.
    + destruct acc; go.
  - (* NSpecQual *) unfold parse_spec_qual. stepT T. stepT T.
    + stepT T; [eapply peek_type_spec; eauto|]. go.
    + destruct acc; go.
  - (* NTypeSpec *) unfold parse_type_spec. destruct P as (t & ts & E & Ts). stepT T.
    rewrite E in H. injection H as <- <-. destruct t as [t|n| | |]; try discriminate; [destruct t; try discriminate; go|].
    cbn in Ts. rewrite Ts. go.
  - (* NStruct *) unfold parse_struct. stepT T. apply tagged_total; auto; try lia; exact I.
  - (* NStructDeclList *) unfold parse_struct_decl_list. go.
  - (* NStructDecl *) unfold parse_struct_decl. go.
  - (* NStructDeclorList *) unfold parse_struct_declor_list. go.
  - (* NEnum *) unfold parse_enum. stepT T. apply tagged_total; auto; try lia; exact I.
  - (* NEnumorList *) unfold parse_enumor_list. go.
  - (* NEnumor *) unfold parse_enumor, parse_constant_expr. stepT T. destruct t; go.
  - (* NInitDeclorList *) unfold parse_init_declor_list. go.
  - (* NInitDeclor *) unfold parse_init_declor. go.
  - (* NDeclor *) unfold parse_declor. stepT T. stepT T.
    + unfold parse_pointer.
      assert (ended (tl (toks st))) as E1.
      { assert (A : wf (advance st) /\ len (advance st) < len st) by
          (apply ctype_eqb_spec in Heqb; apply (wf_advance st t ts W H); rewrite Heqb; discriminate). apply A. }
      destruct (pointer_loop_ok (tl (toks st)) (new_ast AST_PTR_DECLOR []) E1) as (p & ts' & E2 & E3 & E4).
      rewrite E2. cbn [bind].
      assert (WW : wf (with_toks st ts')) by exact E3.
      assert (LL : len (with_toks st ts') < len st) by (unfold len, with_toks; cbn; rewrite H in *; cbn in *; lia).
      set (st1 := with_toks st ts') in *. clearbody st1.
      stepT T.
      destruct (asttype_eqb (ast_type a) (terminal_type abs)) eqn:TT.
      * apply R_ok. destruct S as [_ S]. fin. apply ok_pointer_attach. assumption.
      * destruct (eqb_terminal_replace (terminal_type abs) (pointer_attach p) a) as (d' & E5 & _ & E6); [apply S|exact TT|].
        rewrite E5. cbn [bind]. apply R_ok. fin. apply E6. intros. apply ok_pointer_attach. assumption.
    + destruct abs; stepT T.
  - (* NDirect *) unfold parse_direct. stepT T.
    assert (E0 : forall st0, len st0 <= len st -> wf st0 -> abs = true ->
      R (post_state (NDirect abs) st) (direct_end (parse f) abs None (new_ast AST_ABS_DECLOR []) st0)).
    { intros st0 L0 W0 ->. apply direct_end_total; auto; try lia; try discriminate. apply okd_term. reflexivity. }
    destruct t as [t| | | |].
    2:{ destruct abs; [stepT T|]. adv1. apply direct_end_total; auto; try exact I.
        - destruct (tdflag (advance st)); assumption.
        - destruct (tdflag (advance st)); rewrite ?len_with_names; lia.
        - destruct (tdflag (advance st)); rewrite ?len_with_names; lia.
        - destruct (tdflag (advance st)); rewrite ?len_with_names; lia.
        - apply okd_term. reflexivity. }
    2,3,4: destruct abs; [apply E0; auto|stepT T].
    destruct t; try (destruct abs; [apply E0; auto|stepT T]).
    adv1. stepT T. 
    destruct abs; unpost.
    + stepT T.
      * apply direct_end_total; try wfs; lens; try discriminate; auto.
      * stepT T. destruct (find_terminal_ok _ _ S Heqb) as (x & E1 & E2). cbn [terminal_type] in E1. rewrite E1. cbn [bind].
        apply direct_end_total; auto; try lia. now constructor.
    + stepT T. stepT T.
      * apply direct_end_total; try wfs; lens; auto.
      * destruct (find_terminal_ok _ _ S Heqb) as (x & E1 & E2). cbn [terminal_type] in E1. rewrite E1. cbn [bind].
        apply direct_end_total; auto; try lia. now constructor.
  - (* NSuffixes *) unfold parse_suffixes, parse_constant_expr. stepT T. destruct (ttype t) eqn:TT; go.
  - (* NParamList *) unfold parse_param_list. go.
  - (* NParamDecl *) unfold parse_param_decl. go.
  - (* NInit *) unfold parse_init. go.
  - (* NInitList *) unfold parse_init_list. go.
  - (* NStmt *) unfold parse_stmt. stepT T. destruct (ttype t); go.
  - unfold parse_case, parse_expr. go.
  - unfold parse_default. go.
  - unfold parse_compound. stepT T. stepT T; (eexists _, _; split; [reflexivity|]; fin).
  - unfold parse_items. stepT T. stepT T; [go|]. destruct (item_may_decl st t); go.
  - unfold parse_continue. go.
  - unfold parse_break. go.
  - unfold parse_return, parse_expr. go.
  - unfold parse_expr_stmt, parse_expr. go.
  - unfold parse_if, parse_expr. go.
  - unfold parse_switch, parse_expr. go.
  - unfold parse_while, parse_expr. go.
  - unfold parse_for, parse_expr. do 3 stepT T. destruct (item_may_decl _ _); go; try adv1; apply for_body_total; auto; lens.
  - unfold parse_assign. stepT T.
    + stepT T. destruct (assign_op (ttype t)) eqn:AO; [go|]. apply assign_end_total; try wfs; lens.
    + apply assign_end_total; try wfs; lens.
  - unfold parse_cond, parse_expr. go.
  - unfold parse_level. pose proof (rank_operand l). stepT T; try (destruct l; exact I).
    + assert (len st' < len st) by (apply S; destruct l; exact I). stepT T.
  - unfold parse_tail. stepT T. destruct (level_op l (ttype t)) eqn:LO; [|go]. adv1.
    assert (rank (operand l) <= 18) by apply rank_bound. stepT T; try (destruct l; exact I).
    assert (len st' < len (advance st)) by (apply S; destruct l; exact I). stepT T.
  - unfold parse_cast. stepT T. stepT T; [apply cast_end_total; try wfs; lens|].
    adv1. stepT T.
    + go.
    + apply cast_end_total; try wfs; lens.
  - unfold parse_unary. stepT T.
    destruct (ttype t) eqn:TT; (stepT T; try (do 2 eexists; split; [eassumption | rewrite TT; discriminate])).
  - unfold parse_preinc. destruct P as (t & ts & E & NE). stepT T. rewrite E in H. injection H as <- <-.
    assert (AA := wf_advance st t ts W E NE). destruct AA. stepT T. destruct (ttype t); go.
  - unfold parse_unary_op. destruct P as (t & ts & E & NE). stepT T. rewrite E in H. injection H as <- <-.
    assert (AA := wf_advance st t ts W E NE). destruct AA. stepT T. destruct (ttype t); go.
  - unfold parse_sizeof. go.
  - unfold parse_postfix. go.
  - unfold parse_postfix_tail, parse_expr. stepT T. destruct (ttype t) eqn:TT; go; try adv1; apply member_name_total; auto; lens.
  - unfold parse_args. go.
  - unfold parse_args_tail. go.
  - unfold parse_primary, parse_expr. stepT T. destruct t as [t| | | |]; go. destruct t; go.
Qed.
End Total.

Theorem parse_total : forall f, total_at f.
Proof.
  induction f as [|f IH]; intros n st W P F; [lia|].
  cbn [parse]. apply (body_total f IH n st W P F).
Qed.

(** Every token list that ends with EOF is either parsed or rejected. *)
Theorem parse_tokens_total : forall ts, ended ts -> (exists a, parse_tokens ts = Ok a) \/ parse_tokens ts = Err.
Proof.
  intros ts E. unfold parse_tokens.
  destruct (parse_total (parse_fuel ts) (NTransUnit []) (mkpst ts [] false) E I) as (o & st' & H & _).
  { unfold len, parse_fuel. cbn [toks rank]. lia. }
  rewrite H. cbn [bind]. destruct o; eauto.
Qed.
