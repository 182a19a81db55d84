(** Model of src/ast: the uniform syntax tree. *)
From Verif Require Export Base LiteralModel LexerModel.

(** ast/ast.h:9-137 AstType, in the order of the C enum. *)
Inductive asttype :=
| AST_TRAS_UNIT | AST_FUNC_DEF | AST_DECL | AST_DECL_SPECS | AST_SPEC_QUAL_LIST | AST_INIT_DECLOR_LIST
| AST_INIT_DECLOR | AST_STG_TYPEDEF | AST_TYPE_VOID | AST_TYPE_CHAR | AST_TYPE_INT | AST_TYPE_LONG
| AST_TYPE_UNSIGNED | AST_TYPE_STRUCT | AST_TYPE_ENUM | AST_TYPEDEF_NAME | AST_TYPE_NAME
| AST_STRUCT_NAME | AST_STRUCT_DECL_LIST | AST_STRUCT_DECL | AST_STRUCT_DECLOR_LIST | AST_ENUM_NAME
| AST_ENUMOR_LIST | AST_ENUMOR | AST_ENUM_CONST | AST_IDENT_DECLOR | AST_ABS_DECLOR | AST_PTR_DECLOR
| AST_ARRAY_DECLOR | AST_FUNC_DECLOR | AST_PARAM_LIST | AST_PARAM_DECL | AST_INIT_LIST | AST_CMPD_STMT
| AST_CASE_STMT | AST_DEFAULT_STMT | AST_CONTINUE_STMT | AST_BREAK_STMT | AST_RET_STMT | AST_EXPR_STMT
| AST_NULL_STMT | AST_IF_STMT | AST_SWITCH_STMT | AST_WHILE_STMT | AST_FOR_STMT | AST_ASSIGN_EXPR
| AST_MUL_ASSIGN_EXPR | AST_DIV_ASSIGN_EXPR | AST_MOD_ASSIGN_EXPR | AST_ADD_ASSIGN_EXPR
| AST_SUB_ASSIGN_EXPR | AST_LSHIFT_ASSIGN_EXPR | AST_RSHIFT_ASSIGN_EXPR | AST_AND_ASSIGN_EXPR
| AST_XOR_ASSIGN_EXPR | AST_OR_ASSIGN_EXPR | AST_COND_EXPR | AST_LOR_EXPR | AST_LAND_EXPR | AST_OR_EXPR
| AST_XOR_EXPR | AST_AND_EXPR | AST_EQUAL_EXPR | AST_NEQUAL_EXPR | AST_LESS_EXPR | AST_GREATER_EXPR
| AST_LESSEQ_EXPR | AST_GREATEREQ_EXPR | AST_LSHIFT_EXPR | AST_RSHIFT_EXPR | AST_ADD_EXPR | AST_SUB_EXPR
| AST_MUL_EXPR | AST_DIV_EXPR | AST_MOD_EXPR | AST_CAST_EXPR | AST_PREINC_EXPR | AST_PREDEC_EXPR
| AST_ADDR_EXPR | AST_INDIR_EXPR | AST_POS_EXPR | AST_NEG_EXPR | AST_NOT_EXPR | AST_LNOT_EXPR
| AST_SIZEOF_EXPR | AST_SUBSC_EXPR | AST_CALL_EXPR | AST_MEMBER_EXPR | AST_TOMEMBER_EXPR
| AST_POSTINC_EXPR | AST_POSTDEC_EXPR | AST_ARG_LIST | AST_IDENT_EXPR | AST_INT_EXPR | AST_CHAR_EXPR
| AST_STRING_EXPR.

(** Numeric value of an [AstType] (comparisons `<=` and sorting in the C code use it). *)
Definition asttype_num (t : asttype) : Z :=
  match t with
  | AST_TRAS_UNIT => 0
  | AST_FUNC_DEF => 1
  | AST_DECL => 2
  | AST_DECL_SPECS => 3
  | AST_SPEC_QUAL_LIST => 4
  | AST_INIT_DECLOR_LIST => 5
  | AST_INIT_DECLOR => 6
  | AST_STG_TYPEDEF => 7
  | AST_TYPE_VOID => 8
  | AST_TYPE_CHAR => 9
  | AST_TYPE_INT => 10
  | AST_TYPE_LONG => 11
  | AST_TYPE_UNSIGNED => 12
  | AST_TYPE_STRUCT => 13
  | AST_TYPE_ENUM => 14
  | AST_TYPEDEF_NAME => 15
  | AST_TYPE_NAME => 16
  | AST_STRUCT_NAME => 17
  | AST_STRUCT_DECL_LIST => 18
  | AST_STRUCT_DECL => 19
  | AST_STRUCT_DECLOR_LIST => 20
  | AST_ENUM_NAME => 21
  | AST_ENUMOR_LIST => 22
  | AST_ENUMOR => 23
  | AST_ENUM_CONST => 24
  | AST_IDENT_DECLOR => 25
  | AST_ABS_DECLOR => 26
  | AST_PTR_DECLOR => 27
  | AST_ARRAY_DECLOR => 28
  | AST_FUNC_DECLOR => 29
  | AST_PARAM_LIST => 30
  | AST_PARAM_DECL => 31
  | AST_INIT_LIST => 32
  | AST_CMPD_STMT => 33
  | AST_CASE_STMT => 34
  | AST_DEFAULT_STMT => 35
  | AST_CONTINUE_STMT => 36
  | AST_BREAK_STMT => 37
  | AST_RET_STMT => 38
  | AST_EXPR_STMT => 39
  | AST_NULL_STMT => 40
  | AST_IF_STMT => 41
  | AST_SWITCH_STMT => 42
  | AST_WHILE_STMT => 43
  | AST_FOR_STMT => 44
  | AST_ASSIGN_EXPR => 45
  | AST_MUL_ASSIGN_EXPR => 46
  | AST_DIV_ASSIGN_EXPR => 47
  | AST_MOD_ASSIGN_EXPR => 48
  | AST_ADD_ASSIGN_EXPR => 49
  | AST_SUB_ASSIGN_EXPR => 50
  | AST_LSHIFT_ASSIGN_EXPR => 51
  | AST_RSHIFT_ASSIGN_EXPR => 52
  | AST_AND_ASSIGN_EXPR => 53
  | AST_XOR_ASSIGN_EXPR => 54
  | AST_OR_ASSIGN_EXPR => 55
  | AST_COND_EXPR => 56
  | AST_LOR_EXPR => 57
  | AST_LAND_EXPR => 58
  | AST_OR_EXPR => 59
  | AST_XOR_EXPR => 60
  | AST_AND_EXPR => 61
  | AST_EQUAL_EXPR => 62
  | AST_NEQUAL_EXPR => 63
  | AST_LESS_EXPR => 64
  | AST_GREATER_EXPR => 65
  | AST_LESSEQ_EXPR => 66
  | AST_GREATEREQ_EXPR => 67
  | AST_LSHIFT_EXPR => 68
  | AST_RSHIFT_EXPR => 69
  | AST_ADD_EXPR => 70
  | AST_SUB_EXPR => 71
  | AST_MUL_EXPR => 72
  | AST_DIV_EXPR => 73
  | AST_MOD_EXPR => 74
  | AST_CAST_EXPR => 75
  | AST_PREINC_EXPR => 76
  | AST_PREDEC_EXPR => 77
  | AST_ADDR_EXPR => 78
  | AST_INDIR_EXPR => 79
  | AST_POS_EXPR => 80
  | AST_NEG_EXPR => 81
  | AST_NOT_EXPR => 82
  | AST_LNOT_EXPR => 83
  | AST_SIZEOF_EXPR => 84
  | AST_SUBSC_EXPR => 85
  | AST_CALL_EXPR => 86
  | AST_MEMBER_EXPR => 87
  | AST_TOMEMBER_EXPR => 88
  | AST_POSTINC_EXPR => 89
  | AST_POSTDEC_EXPR => 90
  | AST_ARG_LIST => 91
  | AST_IDENT_EXPR => 92
  | AST_INT_EXPR => 93
  | AST_CHAR_EXPR => 94
  | AST_STRING_EXPR => 95
  end.
Definition asttype_eqb (a b : asttype) : bool := (asttype_num a =? asttype_num b)%Z.

(** ast/ast.h:139-145 Ast. The three payload pointers are modelled by one field: every
    constructor function sets at most one of them (ast/ast.c:14-43). *)
Inductive payload :=
| PNone
| PName (n : name)
| PInt (i : iliteral)
| PStr (s : sliteral).
Inductive ast := Ast (t : asttype) (p : payload) (children : list ast).

Definition ast_type (a : ast) : asttype := match a with Ast t _ _ => t end.
Definition ast_payload (a : ast) : payload := match a with Ast _ p _ => p end.
Definition ast_children (a : ast) : list ast := match a with Ast _ _ c => c end.

(** ast/ast.c:14-25 new_ast, 27-31 new_identifier_ast, 33-37 new_iliteral_ast, 39-43 new_sliteral_ast *)
Definition new_ast (t : asttype) (children : list ast) : ast := Ast t PNone children.
Definition new_identifier_ast (t : asttype) (n : name) : ast := Ast t (PName n) [].
Definition new_iliteral_ast (t : asttype) (i : iliteral) : ast := Ast t (PInt i) [].
Definition new_sliteral_ast (t : asttype) (s : sliteral) : ast := Ast t (PStr s) [].

(** ast/ast.c:74-76 ast_isexpr *)
Definition ast_isexpr (a : ast) : bool :=
  ((asttype_num AST_ASSIGN_EXPR <=? asttype_num (ast_type a)) &&
   (asttype_num (ast_type a) <=? asttype_num AST_STRING_EXPR))%Z.

(** vector_push on the children of a node. *)
Definition ast_push (a c : ast) : ast := Ast (ast_type a) (ast_payload a) (ast_children a ++ [c]).
