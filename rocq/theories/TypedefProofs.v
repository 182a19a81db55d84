(** The parser uses typedef names as types where they are visible. *)
From Verif Require Import Base LiteralModel LexerModel AstModel ParserModel Grammar GrammarProofs GrammarProofs8 TypedefSpec.

Fixpoint all_uses (S : list name) (l : list ast) : Prop := match l with [] => True | c :: r => uses S c /\ all_uses S r end.
Fixpoint items_use (S : list name) (l : list ast) : Prop := match l with [] => True | c :: r => uses S c /\ items_use (after S c) r end.
Fixpoint declors_use (td : bool) (S : list name) (l : list ast) : Prop :=
  match l with [] => True | c :: r => uses (with_declared td S c) c /\ declors_use td (with_declared td S c) r end.
Lemma all_app S l r : all_uses S (l ++ r) <-> all_uses S l /\ all_uses S r.
Proof. induction l; cbn; tauto. Qed.
Lemma uses_all S t p cs : match t with
    AST_IDENT_EXPR | AST_TYPEDEF_NAME | AST_MEMBER_EXPR | AST_TOMEMBER_EXPR | AST_CMPD_STMT | AST_TRAS_UNIT | AST_DECL | AST_FUNC_DEF => False | _ => True end ->
  uses S (Ast t p cs) <-> all_uses S cs.
Proof.
  intros H. assert (E : forall l, (fix all (l : list ast) : Prop := match l with [] => True | c :: r => uses S c /\ all r end) l <-> all_uses S l)
    by (induction l; cbn; tauto).
  destruct t; try destruct H; exact (E cs).
Qed.
Lemma uses_items S p cs t : t = AST_CMPD_STMT \/ t = AST_TRAS_UNIT -> uses S (Ast t p cs) <-> items_use S cs.
Proof.
  intros H. assert (E : forall l S, (fix items (S : list name) (l : list ast) : Prop := match l with [] => True | c :: r => uses S c /\ items (after S c) r end) S l <-> items_use S l).
  { induction l as [|c r IH]; cbn; [tauto|]. intros S'. rewrite (IH (after S' c)). tauto. }
  destruct H as [-> | ->]; exact (E cs S).
Qed.
Lemma uses_decl S p specs q t ds : uses S (Ast AST_DECL p [specs; Ast t q ds]) <-> uses S specs /\ declors_use (says_typedef specs) S ds.
Proof.
  assert (E : forall l S, (fix declors (S : list name) (l : list ast) : Prop :=
         match l with [] => True | c :: r => uses (with_declared (says_typedef specs) S c) c /\ declors (with_declared (says_typedef specs) S c) r end) S l <-> declors_use (says_typedef specs) S l).
  { induction l as [|c r IH]; cbn; [tauto|]. intros S'. rewrite IH. tauto. }
  cbn [uses]. rewrite E. tauto.
Qed.
Definition is_link (a : ast) : Prop := match ast_type a with AST_PTR_DECLOR | AST_ARRAY_DECLOR | AST_FUNC_DECLOR => True | _ => False end.
Definition link_uses (S : list name) (a : ast) : Prop := is_link a /\ all_uses S (ast_children a).
Lemma tree_uses S x k : uses S x -> Forall (link_uses S) k -> uses S (declarator_tree x k).
Proof.
  intros X F. induction F as [|[t p cs] k [L A] F IH]; cbn [declarator_tree]; [exact X|]. apply uses_all; [destruct t; auto; destruct L|]. cbn. auto.
Qed.
Lemma tree_declared x k : Forall is_link k -> declared (declarator_tree x k) = declared x.
Proof. induction 1 as [|[t p cs] k L F IH]; cbn [declarator_tree]; [reflexivity|]. destruct t; destruct L; exact IH. Qed.
Lemma says_eq l : says_typedef (node AST_DECL_SPECS l) = is_typedef l.
Proof. unfold says_typedef, is_typedef. cbn. induction l as [|a l IH]; [reflexivity|]. cbn. rewrite IH. destruct (ast_type a); reflexivity. Qed.
(** what each kind of phrase gives *)
Definition gives (N : symbol) (S : list name) (l : list ast) (S' : list name) : Prop :=
  match N with
  | Declor _ td | Direct _ td =>
    match l with
    | x :: k => Forall (link_uses S') k /\ uses S' x /\ (declared x = None /\ S' = S \/ exists n, declared x = Some n /\ S' = if td then n :: S else S)
    | [] => False
    end
  | Suffixes => S' = S /\ Forall (link_uses S) l
  | InitDeclor td => match l with [a] => S' = with_declared td S a /\ uses S' a | _ => False end
  | InitDeclors td => declors_use td S l /\ S' = fold_left (with_declared td) l S
  | Decl _ | External => match l with [a] => uses S a /\ S' = after S a | _ => False end
  | Items | Unit => items_use S l
  | Stmt _ | ExprStmt | Compound => S' = S /\ all_uses S l /\ match l with [a] => after S a = S | _ => False end
  | _ => S' = S /\ all_uses S l
  end.
Lemma uses_node S t cs : match t with
    AST_IDENT_EXPR | AST_TYPEDEF_NAME | AST_MEMBER_EXPR | AST_TOMEMBER_EXPR | AST_CMPD_STMT | AST_TRAS_UNIT | AST_DECL | AST_FUNC_DEF => False | _ => True end ->
  all_uses S cs -> uses S (node t cs).
Proof. intros H A. apply uses_all; auto. Qed.
Lemma uses_leaf S t n : match t with AST_STRUCT_NAME | AST_ENUM_NAME | AST_ENUM_CONST | AST_IDENT_DECLOR => True | _ => False end -> uses S (named t n).
Proof. intros H. apply uses_all; [destruct t; auto|]. exact Logic.I. Qed.
Ltac use := repeat first [assumption | reflexivity | apply tree_uses | apply uses_node; [exact Logic.I|] | apply uses_leaf; exact Logic.I | split | exact Logic.I | progress cbn [all_uses ast_children] in *].
Ltac ops H := cbn [In] in H; repeat (destruct H as [H|H]; [injection H; intros; subst|]); [..|destruct H].
Lemma links_are S k : Forall (link_uses S) k -> Forall is_link k.
Proof. apply Forall_impl. intros a [L _]. exact L. Qed.
Lemma declor_after (td : bool) S S' x k t r : Forall (link_uses S') k -> (declared x = None /\ S' = S \/ exists n, declared x = Some n /\ S' = (if td then n :: S else S)) ->
  with_declared td S (Ast AST_INIT_DECLOR t (declarator_tree x k :: r)) = S' /\ with_declared td S (declarator_tree x k) = S'.
Proof.
  intros F H. unfold with_declared. cbn [declared]. rewrite (tree_declared x k (links_are _ _ F)).
  destruct H as [[-> ->]|(n & -> & ->)]; destruct td; auto.
Qed.
Lemma gives_operand k S l S' : gives (operand_of k) S l S' = (S' = S /\ all_uses S l).
Proof. do 11 (destruct k as [|k]; [reflexivity|]). reflexivity. Qed.
Ltac conjs := cbn [all_uses] in *; repeat match goal with H : _ /\ _ |- _ => destruct H end.
Lemma G_gives N S ts l S' : G N S ts l S' -> gives N S l S'.
Proof.
  induction 1; rewrite ?gives_operand in *; cbn [gives] in *; conjs.
  all: try (repeat match goal with H : In (_, _) (member_operators) |- _ => ops H | H : In (_, _) postfix_operators |- _ => ops H | H : In (_, _) prefix_operators |- _ => ops H
       | H : In (_, _) unary_operators |- _ => ops H | H : In (_, _) assignment_operators |- _ => ops H | H : In (_, _) type_keywords |- _ => ops H
       | H : In (_, _, _) binary_operators |- _ => ops H end; solve [use]).
  - (* stars *) split; [|split; assumption]. apply Forall_app. split; [assumption|]. clear. induction n; cbn; constructor; auto. split; exact Logic.I.
  - (* a name *) unfold S' in *. destruct td; use; right; eexists; split; reflexivity.
  - (* none *) use. left. use.
  - (* parentheses *) split; [|split; assumption]. apply Forall_app. auto.
  - split; [reflexivity|constructor].
  - split; [reflexivity|]. constructor; [|assumption]. use.
  - split; [reflexivity|]. constructor; [|assumption]. split; [exact Logic.I|]. use.
  - destruct (declor_after td S S' x k PNone []) as [E _]; auto. split; [symmetry; exact E|]. use.
  - destruct (declor_after td S S' x k PNone [i]) as [E _]; auto. split; [symmetry; exact E|]. use.
  - subst S'. cbn. use.
  - subst S'. cbn. use.
  - split; [|reflexivity]. change (uses S (node AST_DECL_SPECS l)). use.
  - split; [apply uses_decl; rewrite says_eq; use|]. cbn [after node]. rewrite says_eq. assumption.
  - assert (uses S i) by (match goal with H : _ \/ _ |- _ => destruct H as [-> | ->]; cbn [gives] in *; conjs; assumption end). use.
  - assert (uses S i) by (match goal with H : _ \/ _ |- _ => destruct H as [-> | ->]; cbn [gives] in *; conjs; assumption end). use.
  - cbn [items_use]. match goal with H : _ \/ _ |- _ => destruct H as [-> | [-> | ->]] end; cbn [gives] in *; conjs; subst; (split; [assumption|]).
    + match goal with E : after S a = S |- _ => rewrite E end. assumption.
    + assumption.
    + assumption.
  - destruct (declor_after (is_typedef l) S S' x k PNone []) as [_ E]; auto. assert (U : uses S (node AST_FUNC_DEF [node AST_DECL_SPECS l; declarator_tree x k; b]) <->
      uses S (node AST_DECL_SPECS l) /\ (let S1 := with_declared (says_typedef (node AST_DECL_SPECS l)) S (declarator_tree x k) in uses S1 (declarator_tree x k) /\ uses S1 b)) by reflexivity.
    split; [|unfold node at 1; cbn [after]; rewrite says_eq; symmetry; exact E]. apply U. cbv zeta. rewrite says_eq, E. use.
  - cbn [items_use]. subst. split; assumption.
Qed.
Theorem parse_uses ts a : typedefs_outside 0 ts -> parse_tokens ts = Ok a -> uses [] a.
Proof.
  intros O E. destruct (grammar_sound ts a O E) as (us & rest & l & S & _ & D & ->). apply G_gives in D. apply uses_items; auto.
Qed.

