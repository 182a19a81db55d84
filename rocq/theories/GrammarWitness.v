(** The parser and the grammar together; programs that C and the parser read differently. *)
From Verif Require Import Base LiteralModel LexerModel AstModel DtypeModel ParserModel SrtModel ResolverModel DriverModel Grammar GrammarProofs GrammarProofs4 GrammarProofs5 GrammarProofs8 WriteSpec TypedefSpec TypedefProofs.

Lemma eof_last (ts us rest : list token) : ~ In (TTok CtEOF) ts -> ts ++ [TTok CtEOF] = us ++ TTok CtEOF :: rest -> us = ts.
Proof.
  revert us. induction ts as [|t ts IH]; intros us N E; destruct us as [|u us]; cbn in *; auto.
  - injection E as E1 E2. destruct us; discriminate E2.
  - injection E as -> E. destruct N. auto.
  - injection E as -> E. f_equal. apply IH; auto.
Qed.
Lemma outside_app ts : forall d us, typedefs_outside d ts -> (forall d', typedefs_outside d' us) -> typedefs_outside d (ts ++ us).
Proof.
  induction ts as [|t ts IH]; intros d us H K; cbn [app]; [apply K|]. cbn [typedefs_outside] in *. destruct t as [[]| | | |]; auto. destruct H. auto.
Qed.
(** the parser accepts the phrases of the grammar, with their trees *)
Theorem parse_iff ts a : ~ In (TTok CtEOF) ts -> typedefs_outside 0 ts ->
  parse_tokens (ts ++ [TTok CtEOF]) = Ok a <-> exists l S, G Unit [] ts l S /\ a = Ast AST_TRAS_UNIT PNone l.
Proof.
  intros N O. split.
  - intros E. apply grammar_sound in E; [|apply outside_app; auto; intros; exact Logic.I]. destruct E as (us & rest & l & S & E & D & ->). apply eof_last in E; auto. subst us. eauto.
  - intros (l & S & D & ->). eapply grammar_complete; eauto.
Qed.
Theorem grammar_unambiguous ts l S l' S' : G Unit [] ts l S -> G Unit [] ts l' S' -> l = l'.
Proof. intros D D'. apply grammar_complete in D. apply grammar_complete in D'. congruence. Qed.

(** no parameter is declared with `typedef` *)
Fixpoint clean (a : ast) : Prop :=
  let 'Ast t _ cs := a in
  match t, cs with AST_PARAM_DECL, Ast _ _ l :: _ => is_typedef l = false | _, _ => True end /\
  (fix all (l : list ast) : Prop := match l with [] => True | c :: r => clean c /\ all r end) cs.
Fixpoint all_clean (l : list ast) : Prop := match l with [] => True | c :: r => clean c /\ all_clean r end.
Lemma clean_node t p cs : t <> AST_PARAM_DECL -> clean (Ast t p cs) <-> all_clean cs.
Proof.
  intros N. assert (E : forall l, (fix all (l : list ast) : Prop := match l with [] => True | c :: r => clean c /\ all r end) l <-> all_clean l) by (induction l; cbn; tauto).
  cbn [clean]. rewrite E. destruct t; try destruct (N eq_refl); tauto.
Qed.
Lemma all_clean_app l r : all_clean (l ++ r) <-> all_clean l /\ all_clean r.
Proof. induction l; cbn; tauto. Qed.
Definition link_clean (a : ast) : Prop := ast_type a <> AST_PARAM_DECL /\ all_clean (ast_children a).
Definition grown (N : symbol) (l : list ast) : Prop :=
  match N with
  | Declor _ _ | Direct _ _ => match l with x :: k => clean x /\ Forall link_clean k | [] => False end
  | Suffixes => Forall link_clean l
  | _ => all_clean l
  end.
Lemma tree_clean x k : clean x -> Forall link_clean k -> clean (declarator_tree x k).
Proof. intros X F. induction F as [|[t p cs] k [L A] F IH]; cbn [declarator_tree]; [exact X|]. apply clean_node; auto. cbn. auto. Qed.
Lemma clean_leaf t n : t <> AST_PARAM_DECL -> clean (named t n).
Proof. intros N. apply clean_node; [exact N|exact Logic.I]. Qed.
Lemma clean_inner t cs : t <> AST_PARAM_DECL -> all_clean cs -> clean (node t cs).
Proof. intros N A. apply clean_node; auto. Qed.
Lemma grown_operand k l : grown (operand_of k) l = all_clean l.
Proof. do 11 (destruct k as [|k]; [reflexivity|]). reflexivity. Qed.
Ltac ops H := cbn [In] in H; repeat (destruct H as [H|H]; [injection H; intros; subst|]); [..|destruct H].
Ltac cl := repeat first [assumption | apply tree_clean | apply clean_inner; [discriminate|] | apply clean_leaf; discriminate | split | exact Logic.I | progress cbn [all_clean ast_children] in *].
Ltac conjs := cbn [all_clean] in *; repeat match goal with H : _ /\ _ |- _ => destruct H end.
Lemma G_clean N S ts l S' : G N S ts l S' -> grown N l.
Proof.
  induction 1; rewrite ?grown_operand in *; cbn [grown] in *; conjs.
  all: try (repeat match goal with H : In (_, _) (member_operators) |- _ => ops H | H : In (_, _) postfix_operators |- _ => ops H | H : In (_, _) prefix_operators |- _ => ops H
       | H : In (_, _) unary_operators |- _ => ops H | H : In (_, _) assignment_operators |- _ => ops H | H : In (_, _) type_keywords |- _ => ops H
       | H : In (_, _, _) binary_operators |- _ => ops H end; solve [cl]).
  - split; [assumption|]. apply Forall_app. split; [assumption|]. clear. induction n; cbn; constructor; auto. split; [discriminate|exact Logic.I].
  - split; [assumption|]. apply Forall_app. auto.
  - constructor.
  - constructor; [|assumption]. split; [discriminate|]. cl.
  - constructor; [|assumption]. split; [discriminate|]. cl.
  - assert (clean i) by (match goal with H : _ \/ _ |- _ => destruct H as [-> | ->]; cbn [grown] in *; conjs; assumption end). cl.
  - assert (clean i) by (match goal with H : _ \/ _ |- _ => destruct H as [-> | ->]; cbn [grown] in *; conjs; assumption end). cl.
  - split; [|assumption]. match goal with H : _ \/ _ |- _ => destruct H as [-> | [-> | ->]] end; cbn [grown] in *; conjs; assumption.
Qed.

Definition tokens (s : list Z) : list token := match lex_source s with Ok ts => removelast ts | _ => [] end.
(** `void f(typedef int T);`: accepted, though a parameter cannot be a typedef (6.7.6.3p2) *)
Definition typedef_parameter : list token := tokens (bytes "void f(typedef int T);").
Theorem typedef_parameter_accepted : exists ts a, ~ In (TTok CtEOF) ts /\ parse_tokens (ts ++ [TTok CtEOF]) = Ok a /\ forall l S, ~ G Unit [] ts l S.
Proof.
  exists typedef_parameter. eexists. split; [|split].
  - vm_compute. intuition congruence.
  - vm_compute. reflexivity.
  - intros l S D. pose proof (G_clean _ _ _ _ _ D) as C. apply grammar_complete in D. vm_compute in D. injection D as <-. vm_compute in C. intuition congruence.
Qed.

(** C12: a parameter of type `int (T)`, a function, inside a type name: `sizeof(int ( * )(int (T)))`. The parser takes T for the name of a parameter. *)
Definition T_name : name := bytes "T".
Definition main_name : name := bytes "main".
Definition function_parameter : type := TPointer (TFunction [(None, TFunction [(None, TBasic (BTypedef T_name))] (TBasic BInt))] (TBasic BInt)).
Theorem function_parameter_misread : exists l n e, NoDup l /\ ~ In n l /\ (forall m, In m (names e) -> ~ In m l) /\ (forall m, In m (typedefs e) -> In m l) /\
  parse_tokens (concat (map typedef_tokens l) ++ main_tokens n (write 1 e) ++ [TTok CtEOF]) <> Ok (n0 AST_TRAS_UNIT (map typedef_tree l ++ [main_tree n (tree e)])).
Proof.
  exists [T_name], main_name, (ESizeofType function_parameter). split; [|split; [|split; [|split]]].
  - repeat constructor. intros [].
  - vm_compute. intuition congruence.
  - intros m I. destruct I.
  - intros m I. exact I.
  - vm_compute. discriminate.
Qed.
(** C13: the same in a declaration: the type declared is not the one written *)
Theorem function_parameter_declared : exists t a n,
  parse_tokens (typedef_tokens T_name ++ declare t n ++ [TTok Semicolon; TTok CtEOF]) = Ok a /\
  exists ps, t = TFunction [(None, TFunction [(None, TBasic (BTypedef T_name))] (TBasic BInt))] (TBasic BInt) /\
  resolve a = Ok (new_srt SRT_TRAS_UNIT [new_srt SRT_DECL_LIST [new_srt SRT_INIT_DECL [new_identifier_srt SRT_IDENT_DECL (DTYPE_TYPEDEF DTYPE_INT) T_name]];
                                         new_srt SRT_DECL_LIST [new_srt SRT_INIT_DECL [new_identifier_srt SRT_IDENT_DECL (DTYPE_FUNCTION ps DTYPE_INT) n]]]) /\
  ps <> [(None, DTYPE_POINTER (DTYPE_FUNCTION [(None, DTYPE_INT)] DTYPE_INT))].
Proof.
  exists (TFunction [(None, TFunction [(None, TBasic (BTypedef T_name))] (TBasic BInt))] (TBasic BInt)). eexists. exists main_name. split; [vm_compute; reflexivity|].
  eexists. split; [reflexivity|]. split; [vm_compute; reflexivity|]. vm_compute. discriminate.
Qed.

(** C15: a local variable with the name of a typedef. The declaration is valid C, and `T` in the return statement is the variable. *)
Definition shadowed : list Z := bytes "typedef int T; int main(void) { int T = 3; return T; }".
Theorem shadowed_rejected : exists ts, lex_source shadowed = Ok ts /\ parse_tokens ts = Err.
Proof. eexists. split; vm_compute; reflexivity. Qed.
(** An enumeration constant with the name of a typedef is accepted, but the name is still used as a type: `(T) + 1` is a cast of +1. *)
Definition shadowed_by_constant : list Z := bytes "typedef int T; int main(void) { enum { T }; return (T) + 1; }".
Definition enum_T : ast := n0 AST_DECL [n0 AST_DECL_SPECS [n0 AST_TYPE_ENUM [n0 AST_ENUMOR_LIST [n0 AST_ENUMOR [Ast AST_ENUM_CONST (PName T_name) []]]]]].
Theorem constant_misread : exists ts, lex_source shadowed_by_constant = Ok ts /\
  parse_tokens ts = Ok (n0 AST_TRAS_UNIT [typedef_tree T_name;
    n0 AST_FUNC_DEF [n0 AST_DECL_SPECS [n0 AST_TYPE_INT []];
      n0 AST_FUNC_DECLOR [Ast AST_IDENT_DECLOR (PName main_name) []; n0 AST_PARAM_LIST [n0 AST_PARAM_DECL [n0 AST_DECL_SPECS [n0 AST_TYPE_VOID []]; n0 AST_ABS_DECLOR []]]];
      n0 AST_CMPD_STMT [enum_T; n0 AST_RET_STMT [n0 AST_CAST_EXPR
        [n0 AST_TYPE_NAME [n0 AST_SPEC_QUAL_LIST [Ast AST_TYPEDEF_NAME (PName T_name) []]; n0 AST_ABS_DECLOR []];
         n0 AST_POS_EXPR [Ast AST_INT_EXPR (PInt (new_signed IInt 1)) []]]]]]]).
Proof. eexists. split; vm_compute; reflexivity. Qed.
(** A typedef in a `for` is still visible after it. *)
Definition typedef_in_for : list Z := bytes "int main(void) { for (typedef int T; 0; ) ; return (T) + 1; }".
Theorem typedef_leaks : exists ts a, lex_source typedef_in_for = Ok ts /\ parse_tokens ts = Ok a /\ ~ uses [] a.
Proof. do 2 eexists. split; [vm_compute; reflexivity|]. split; [vm_compute; reflexivity|]. vm_compute. tauto. Qed.

