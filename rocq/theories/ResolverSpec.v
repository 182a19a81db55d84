(** What a user may rely on about every accepted program, stated on the typed tree: types of operands (C23), what is
    modified (C24), where jumps are (C25), how often side effects happen (C26), how initialisers cover objects (C27). *)
From Verif Require Import Base AstModel DtypeModel SrtModel TypeSpec ElabSpec.
Local Open Scope Z_scope.

(** [x] is in the tree [s], inside the nodes [around] (outermost first) *)
Inductive occurs : srt -> list srt -> srt -> Prop :=
| occurs_here s : occurs s [] s
| occurs_below s c around x : In c (srt_children s) -> occurs c around x -> occurs s (s :: around) x.

(** ** C23: a node and the types of its operands *)
Definition promoted_type (d : dtype) : Prop := exists r u, d = integer_type r u.
Definition value_type (d : dtype) : Prop := arithmetic d \/ exists t, d = DTYPE_POINTER t.
Definition integer_nodes : list srttype := [
  SRT_MUL_EXPR; SRT_DIV_EXPR; SRT_MOD_EXPR; SRT_ADD_EXPR; SRT_SUB_EXPR; SRT_LSHIFT_EXPR; SRT_RSHIFT_EXPR;
  SRT_AND_EXPR; SRT_XOR_EXPR; SRT_OR_EXPR].
Definition comparison_nodes : list srttype := [
  SRT_EQUAL_EXPR; SRT_NEQUAL_EXPR; SRT_LESS_EXPR; SRT_GREATER_EXPR; SRT_LESSEQ_EXPR; SRT_GREATEREQ_EXPR].
Definition incdec_nodes : list srttype := [SRT_PREINC_EXPR; SRT_PREDEC_EXPR; SRT_POSTINC_EXPR; SRT_POSTDEC_EXPR].
Definition sign_nodes : list srttype := [SRT_POS_EXPR; SRT_NEG_EXPR; SRT_NOT_EXPR].
Definition logical_nodes : list srttype := [SRT_LOR_EXPR; SRT_LAND_EXPR].
(** nodes that are not values *)
Definition plain_nodes : list srttype := [
  SRT_TRAS_UNIT; SRT_FUNC_DEF; SRT_DECL_LIST; SRT_TAG_DECL; SRT_INIT_DECL; SRT_IDENT_DECL; SRT_STR_DECL; SRT_INIT;
  SRT_CMPD_STMT; SRT_DEFAULT_STMT; SRT_CONTINUE_STMT; SRT_BREAK_STMT; SRT_EXPR_STMT; SRT_NULL_STMT; SRT_FOR_STMT; SRT_ARG_LIST].
Inductive node_typed : srt -> Prop :=
| typed_variable d n : node_typed (Srt SRT_IDENT_EXPR (Some d) (SPName n) [])
| typed_integer i : node_typed (Srt SRT_ILITERAL_EXPR (Some (constant_type i)) (SPInt i) [])
| typed_character i : node_typed (Srt SRT_ILITERAL_EXPR (Some DTYPE_INT) (SPInt i) [])
| typed_string n id : node_typed (Srt SRT_STR_EXPR (Some (DTYPE_ARRAY DTYPE_CHAR n)) (SPStrId id) [])
| typed_characters n s : Z.of_nat (length s) = Z.max 0 n -> node_typed (Srt SRT_SLITERAL_EXPR (Some (DTYPE_ARRAY DTYPE_CHAR n)) (SPStr s) [])
| typed_binary t d l r : In t integer_nodes -> promoted_type d -> has l d -> has r d -> node_typed (node t d [l; r])
| typed_compare t d l r : In t comparison_nodes -> promoted_type d -> has l d -> has r d -> node_typed (node t DTYPE_INT [l; r])
| typed_compare_pointers t e e' l r : In t comparison_nodes -> has l (DTYPE_POINTER e) -> has r (DTYPE_POINTER e') -> same_type e e' ->
    node_typed (node t DTYPE_INT [l; r])
| typed_logical t dl dr l r : In t logical_nodes -> has l dl -> scalar dl -> has r dr -> scalar dr -> node_typed (node t DTYPE_INT [l; r])
| typed_sign t d s : In t sign_nodes -> promoted_type d -> has s d -> node_typed (node t d [s])
| typed_not d s : has s d -> scalar d -> node_typed (node SRT_LNOT_EXPR DTYPE_INT [s])
| typed_pointer_plus e d l r : has l (DTYPE_POINTER e) -> has r d -> integer d -> node_typed (node SRT_PADD_EXPR (DTYPE_POINTER e) [l; r])
| typed_pointer_minus e d l r : has l (DTYPE_POINTER e) -> has r d -> integer d -> node_typed (node SRT_PSUB_EXPR (DTYPE_POINTER e) [l; r])
| typed_pointer_difference e e' l r : has l (DTYPE_POINTER e) -> has r (DTYPE_POINTER e') -> same_type e e' ->
    node_typed (node SRT_PDIFF_EXPR DTYPE_UNSIGNED_LONGLONG [l; r])
| typed_conditional d c dc l r : has c dc -> scalar dc -> promoted_type d -> has l d -> has r d -> node_typed (node SRT_COND_EXPR d [c; l; r])
| typed_conditional_same d d' c dc l r : has c dc -> scalar dc -> has l d -> has r d' -> same_type d d' -> (exists t, d = DTYPE_POINTER t) \/ structure d ->
    node_typed (node SRT_COND_EXPR d [c; l; r])
| typed_cast d ds s : has s ds -> (d = DTYPE_VOID \/ value_type d /\ value_type ds) -> node_typed (node SRT_CAST_EXPR d [s])
| typed_address d s : has s d -> node_typed (node SRT_ADDR_EXPR (DTYPE_POINTER d) [s])
| typed_array_address e n s : has s (DTYPE_ARRAY e n) -> node_typed (node SRT_ADDR_EXPR (DTYPE_POINTER e) [s])
| typed_indirection e s : has s (DTYPE_POINTER e) -> node_typed (node SRT_INDIR_EXPR e [s])
| typed_member tags d ms n md s : has s (DTYPE_POINTER d) -> members_of tags d ms -> member_of ms n md ->
    node_typed (node SRT_TOMEMBER_EXPR md [s; Srt SRT_IDENT_EXPR (Some md) (SPName n) []])
| typed_call ps ret f args : has f (DTYPE_POINTER (DTYPE_FUNCTION ps ret)) -> Forall2 (fun p a => exists d, has a d /\ same_type d (snd p)) ps args ->
    node_typed (node SRT_CALL_EXPR ret [f; Srt SRT_ARG_LIST None SPNone args])
| typed_incdec t d l : In t incdec_nodes -> has l d -> scalar d -> node_typed (node t d [address d l])
| typed_assign d d' l r : has l d -> has r d' -> same_type d' d -> value_type d \/ structure d -> node_typed (node SRT_ASSIGN_EXPR d [address d l; r])
| typed_if c d bs : has c d -> scalar d -> node_typed (stmt_node SRT_IF_STMT (c :: bs))
| typed_while c d b : has c d -> scalar d -> node_typed (stmt_node SRT_WHILE_STMT [c; b])
| typed_switch c d b : has c d -> promoted_type d -> node_typed (stmt_node SRT_SWITCH_STMT [c; b])
| typed_case c v b : literal_value c v -> node_typed (stmt_node SRT_CASE_STMT [c; b])
| typed_return s : (forall v, s = Some v -> exists d, has v d) -> node_typed (stmt_node SRT_RET_STMT (match s with Some v => [v] | None => [] end))
| typed_plain t d p cs : In t plain_nodes -> node_typed (Srt t d p cs).

(** ** C24 *)
Definition modifying (s : srt) : Prop := In (srt_type s) [SRT_ASSIGN_EXPR; SRT_PREINC_EXPR; SRT_PREDEC_EXPR; SRT_POSTINC_EXPR; SRT_POSTDEC_EXPR].
(** the first operand of [s] is the address of a modifiable lvalue *)
Definition modifies_lvalue (s : srt) : Prop := exists d l rest, srt_children s = address d l :: rest /\ modifiable l.

(** ** C25 *)
Definition among (l : list srttype) (around : list srt) : Prop := exists s, In s around /\ In (srt_type s) l.
Definition well_placed (around : list srt) (x : srt) : Prop :=
  (srt_type x = SRT_BREAK_STMT -> among [SRT_WHILE_STMT; SRT_FOR_STMT; SRT_SWITCH_STMT] around) /\
  (srt_type x = SRT_CONTINUE_STMT -> among [SRT_WHILE_STMT; SRT_FOR_STMT] around) /\
  (srt_type x = SRT_CASE_STMT \/ srt_type x = SRT_DEFAULT_STMT -> among [SRT_SWITCH_STMT] around).
(** the labels that belong to this switch are different, with one default at most *)
Definition distinct_labels (x : srt) : Prop :=
  forall c b, srt_type x = SRT_SWITCH_STMT -> srt_children x = [c; b] -> NoDup (cases_of b) /\ (defaults_of b <= 1)%nat.

(** ** C26: the number of assignments, increments and calls that the evaluation of an expression contains *)
Definition effect_nodes : list srttype := [SRT_ASSIGN_EXPR; SRT_PREINC_EXPR; SRT_PREDEC_EXPR; SRT_POSTINC_EXPR; SRT_POSTDEC_EXPR; SRT_CALL_EXPR].
Fixpoint effects (s : srt) : nat :=
  let 'Srt t _ _ cs := s in
  ((if in_dec srttype_eq_dec t effect_nodes then 1 else 0) + list_sum (List.map effects cs))%nat.
Definition effect_operators : list asttype := [
  AST_ASSIGN_EXPR; AST_MUL_ASSIGN_EXPR; AST_DIV_ASSIGN_EXPR; AST_MOD_ASSIGN_EXPR; AST_ADD_ASSIGN_EXPR; AST_SUB_ASSIGN_EXPR; AST_LSHIFT_ASSIGN_EXPR;
  AST_RSHIFT_ASSIGN_EXPR; AST_AND_ASSIGN_EXPR; AST_XOR_ASSIGN_EXPR; AST_OR_ASSIGN_EXPR;
  AST_PREINC_EXPR; AST_PREDEC_EXPR; AST_POSTINC_EXPR; AST_POSTDEC_EXPR; AST_CALL_EXPR].
Scheme Equality for asttype.
(** how many operands an operator has *)
Definition operands (t : asttype) : nat :=
  match t with
  | AST_IDENT_EXPR | AST_INT_EXPR | AST_CHAR_EXPR | AST_STRING_EXPR => 0
  | AST_MEMBER_EXPR | AST_TOMEMBER_EXPR | AST_PREINC_EXPR | AST_PREDEC_EXPR | AST_POSTINC_EXPR | AST_POSTDEC_EXPR
  | AST_ADDR_EXPR | AST_INDIR_EXPR | AST_POS_EXPR | AST_NEG_EXPR | AST_NOT_EXPR | AST_LNOT_EXPR => 1
  | AST_COND_EXPR => 3
  | _ => 2
  end.
(** the operand of sizeof is not evaluated *)
Fixpoint effects_of_source (a : ast) : nat :=
  let 'Ast t _ cs := a in
  match t, cs with
  | AST_SIZEOF_EXPR, _ => 0
  | AST_CAST_EXPR, _ :: e :: _ => effects_of_source e
  | AST_CALL_EXPR, f :: Ast _ _ args :: _ => 1 + effects_of_source f + list_sum (List.map effects_of_source args)
  | _, _ => (if in_dec asttype_eq_dec t effect_operators then 1 else 0) + list_sum (firstn (operands t) (List.map effects_of_source cs))
  end%nat.
(** no compound assignment has a left operand with side effects *)
Fixpoint pure_targets (a : ast) : Prop :=
  let 'Ast t _ cs := a in
  match t, cs with
  | AST_SIZEOF_EXPR, _ => True
  | AST_CAST_EXPR, _ :: e :: _ => pure_targets e
  | AST_CALL_EXPR, f :: Ast _ _ args :: _ => pure_targets f /\ fold_right and True (List.map pure_targets args)
  | _, _ => (In t (List.map fst compound_operators) -> match cs with l :: _ => effects_of_source l = O | [] => True end)
            /\ fold_right and True (firstn (operands t) (List.map pure_targets cs))
  end.

(** ** C27: the initialiser [s] gives every scalar in an object of type [d] one value, and every byte of a char array *)
Inductive covers : dtype -> srt -> Prop :=
| covers_scalar d v d' : value_type d -> has v d' -> same_type d' d -> covers d (init_node [v])
| covers_string n s : Z.of_nat (length s) = Z.max 0 n ->
    covers (DTYPE_ARRAY DTYPE_CHAR n) (init_node [Srt SRT_SLITERAL_EXPR (Some (DTYPE_ARRAY DTYPE_CHAR n)) (SPStr s) []])
| covers_aggregate tags d es ss : elements tags d es -> covers_all es ss -> covers d (init_node ss)
with covers_all : list dtype -> list srt -> Prop :=
| covers_all_nil : covers_all [] []
| covers_all_cons d ds s ss : covers d s -> covers_all ds ss -> covers_all (d :: ds) (s :: ss).
(** the values of an initialiser, in order *)
Fixpoint scalars (s : srt) : list srt :=
  match s with
  | Srt SRT_INIT None _ cs => flat_map scalars cs
  | _ => [s]
  end.
(** [v] is the value of the expression [a], converted as by assignment *)
Definition value_for (a : ast) (v : srt) : Prop :=
  exists E s sv d E', elab E a s E' /\ value_of s sv /\ assigned_to d sv v.
Definition is_zero (v : srt) : Prop := v = zero \/ exists d, v = node SRT_CAST_EXPR d [zero].
(** an item of an initialiser list that is an expression and not a string *)
Definition expression_item (a : ast) : Prop := ~ braced a /\ ast_type a <> AST_STRING_EXPR.

(** all nodes of a tree *)
Fixpoint nodes (s : srt) : list srt := let 'Srt _ _ _ cs := s in s :: flat_map nodes cs.
Fixpoint ast_nodes (a : ast) : list ast := let 'Ast _ _ cs := a in a :: flat_map ast_nodes cs.
