(** C12 to C15: the grammar of C (ISO C 6.5, 6.7, 6.8, 6.9) as far as the compiler supports it, with the tree of
    each phrase.

    [G N S ts l S']: where the identifiers in [S] name types, the tokens [ts] are a phrase of kind [N], [l] are its
    trees (one tree, or one for each element of a list), and after it the identifiers in [S'] name types. *)
From Verif Require Import Base LiteralModel LexerModel AstModel.

Inductive symbol :=
| Primary | Postfix | Unary | Cast | Bin (k : nat) | Cond | Assign | Args | ArgList
| TypeSpec | SpecQual | DeclSpecs | TypeName | StructDecls | StructDecl | StructDeclors | Enumors | Enumor
| Declor (abs td : bool) | Direct (abs td : bool) | Suffixes | Params | Param
| Init | Inits | InitDeclor (td : bool) | InitDeclors (td : bool) | Decl (td : bool)
| Stmt (open : bool) | ExprStmt | Compound | Items | External | Unit.

(** binary operators by precedence, 1 the loosest *)
Definition binary_operators : list (nat * ctype * asttype) :=
  [(1, VBarVBar, AST_LOR_EXPR); (2, AndAnd, AST_LAND_EXPR); (3, VBar, AST_OR_EXPR); (4, Caret, AST_XOR_EXPR); (5, And, AST_AND_EXPR);
   (6, EqualEqual, AST_EQUAL_EXPR); (6, ExclamEqual, AST_NEQUAL_EXPR);
   (7, Less, AST_LESS_EXPR); (7, Greater, AST_GREATER_EXPR); (7, LessEqual, AST_LESSEQ_EXPR); (7, GreaterEqual, AST_GREATEREQ_EXPR);
   (8, LessLess, AST_LSHIFT_EXPR); (8, GreaterGreater, AST_RSHIFT_EXPR); (9, Plus, AST_ADD_EXPR); (9, Minus, AST_SUB_EXPR);
   (10, Asterisk, AST_MUL_EXPR); (10, Slash, AST_DIV_EXPR); (10, Percent, AST_MOD_EXPR)]%nat.
Definition operand_of (k : nat) : symbol := match k with 10 => Cast | _ => Bin (S k) end%nat.
Definition assignment_operators : list (ctype * asttype) :=
  [(Equal, AST_ASSIGN_EXPR); (AsteriskEqual, AST_MUL_ASSIGN_EXPR); (SlashEqual, AST_DIV_ASSIGN_EXPR); (PercentEqual, AST_MOD_ASSIGN_EXPR);
   (PlusEqual, AST_ADD_ASSIGN_EXPR); (MinusEqual, AST_SUB_ASSIGN_EXPR); (LessLessEqual, AST_LSHIFT_ASSIGN_EXPR);
   (GreaterGreaterEqual, AST_RSHIFT_ASSIGN_EXPR); (AndEqual, AST_AND_ASSIGN_EXPR); (CaretEqual, AST_XOR_ASSIGN_EXPR); (VBarEqual, AST_OR_ASSIGN_EXPR)].
Definition unary_operators : list (ctype * asttype) :=
  [(And, AST_ADDR_EXPR); (Asterisk, AST_INDIR_EXPR); (Plus, AST_POS_EXPR); (Minus, AST_NEG_EXPR); (Tilde, AST_NOT_EXPR); (Exclam, AST_LNOT_EXPR)].
Definition prefix_operators : list (ctype * asttype) := [(PlusPlus, AST_PREINC_EXPR); (MinusMinus, AST_PREDEC_EXPR)].
Definition postfix_operators : list (ctype * asttype) := [(PlusPlus, AST_POSTINC_EXPR); (MinusMinus, AST_POSTDEC_EXPR)].
Definition member_operators : list (ctype * asttype) := [(Dot, AST_MEMBER_EXPR); (Arrow, AST_TOMEMBER_EXPR)].
Definition type_keywords : list (ctype * asttype) :=
  [(KwVoid, AST_TYPE_VOID); (KwChar, AST_TYPE_CHAR); (KwInt, AST_TYPE_INT); (KwLong, AST_TYPE_LONG); (KwUnsigned, AST_TYPE_UNSIGNED)].
Definition node (t : asttype) (l : list ast) : ast := Ast t PNone l.
Definition named (t : asttype) (n : name) : ast := Ast t (PName n) [].

(** a specifier can begin with this token *)
Definition begins_specifier (S : list name) (t : token) : Prop :=
  match t with
  | TTok (KwVoid | KwChar | KwInt | KwLong | KwUnsigned | KwStruct | KwEnum | KwTypedef) => True
  | TIdent n => In n S
  | _ => False
  end.
(** specifiers are read as far as possible: what follows them does not begin with one *)
Definition no_specifier (S : list name) (ts : list token) : Prop := match ts with [] => True | t :: _ => ~ begins_specifier S t end.
(** the parameter list of an abstract declarator `(...)` does not begin with an identifier *)
Definition no_leading_name (ts : list token) : Prop := match ts with TTok LParen :: TIdent _ :: _ => False | _ => True end.
Definition is_typedef (l : list ast) : bool := existsb (fun a => match ast_type a with AST_STG_TYPEDEF => true | _ => false end) l.

(** Declarators have the trees [x :: links]: the identifier (or nothing, for an abstract declarator) and the
    derivations that lead from it to the base type, in the order in which they are read. In the tree each
    derivation is the first child of the one before it. *)
Fixpoint declarator_tree (x : ast) (links : list ast) : ast :=
  match links with [] => x | Ast t p cs :: r => Ast t p (declarator_tree x r :: cs) end.

Inductive G : symbol -> list name -> list token -> list ast -> list name -> Prop :=
(* expressions *)
| g_ident S n : ~ In n S -> G Primary S [TIdent n] [named AST_IDENT_EXPR n] S
| g_int S i : G Primary S [TInt i] [Ast AST_INT_EXPR (PInt i) []] S
| g_char S i : G Primary S [TChar i] [Ast AST_CHAR_EXPR (PInt i) []] S
| g_string S s : G Primary S [TStr s] [Ast AST_STRING_EXPR (PStr s) []] S
| g_paren S ts a : G Assign S ts [a] S -> G Primary S (TTok LParen :: ts ++ [TTok RParen]) [a] S
| g_primary S ts a : G Primary S ts [a] S -> G Postfix S ts [a] S
| g_index S ts us a b : G Postfix S ts [a] S -> G Assign S us [b] S ->
    G Postfix S (ts ++ TTok LBracket :: us ++ [TTok RBracket]) [node AST_SUBSC_EXPR [a; b]] S
| g_call S ts us a l : G Postfix S ts [a] S -> G Args S us l S ->
    G Postfix S (ts ++ TTok LParen :: us ++ [TTok RParen]) [node AST_CALL_EXPR [a; node AST_ARG_LIST l]] S
| g_member S ts a t ty n : G Postfix S ts [a] S -> In (t, ty) member_operators ->
    G Postfix S (ts ++ [TTok t; TIdent n]) [node ty [a; named AST_IDENT_EXPR n]] S
| g_postfix S ts a t ty : G Postfix S ts [a] S -> In (t, ty) postfix_operators -> G Postfix S (ts ++ [TTok t]) [node ty [a]] S
| g_no_args S : G Args S [] [] S
| g_args S ts l : G ArgList S ts l S -> G Args S ts l S
| g_arg S ts a : G Assign S ts [a] S -> G ArgList S ts [a] S
| g_arg_more S ts a us l : G Assign S ts [a] S -> G ArgList S us l S -> G ArgList S (ts ++ TTok Comma :: us) (a :: l) S
| g_unary S ts a : G Postfix S ts [a] S -> G Unary S ts [a] S
| g_prefix S t ty ts a : In (t, ty) prefix_operators -> G Unary S ts [a] S -> G Unary S (TTok t :: ts) [node ty [a]] S
| g_unary_op S t ty ts a : In (t, ty) unary_operators -> G Cast S ts [a] S -> G Unary S (TTok t :: ts) [node ty [a]] S
| g_sizeof S ts a : G Unary S ts [a] S -> G Unary S (TTok KwSizeof :: ts) [node AST_SIZEOF_EXPR [a]] S
| g_sizeof_type S ts a : G TypeName S ts [a] S -> G Unary S (TTok KwSizeof :: TTok LParen :: ts ++ [TTok RParen]) [node AST_SIZEOF_EXPR [a]] S
| g_uncast S ts a : G Unary S ts [a] S -> G Cast S ts [a] S
| g_cast S ts a us b : G TypeName S ts [a] S -> G Cast S us [b] S ->
    G Cast S (TTok LParen :: ts ++ TTok RParen :: us) [node AST_CAST_EXPR [a; b]] S
| g_operand S k ts a : (1 <= k <= 10)%nat -> G (operand_of k) S ts [a] S -> G (Bin k) S ts [a] S
| g_binary S k t ty ts a us b : In (k, t, ty) binary_operators -> G (Bin k) S ts [a] S -> G (operand_of k) S us [b] S ->
    G (Bin k) S (ts ++ TTok t :: us) [node ty [a; b]] S
| g_uncond S ts a : G (Bin 1) S ts [a] S -> G Cond S ts [a] S
| g_cond S ts a us b vs c : G (Bin 1) S ts [a] S -> G Assign S us [b] S -> G Cond S vs [c] S ->
    G Cond S (ts ++ TTok Question :: us ++ TTok Colon :: vs) [node AST_COND_EXPR [a; b; c]] S
| g_unassign S ts a : G Cond S ts [a] S -> G Assign S ts [a] S
| g_assign S ts a t ty us b : G Unary S ts [a] S -> In (t, ty) assignment_operators -> G Assign S us [b] S ->
    G Assign S (ts ++ TTok t :: us) [node ty [a; b]] S
(* specifiers and type names *)
| g_type S t ty : In (t, ty) type_keywords -> G TypeSpec S [TTok t] [node ty []] S
| g_typedef_name S n : In n S -> G TypeSpec S [TIdent n] [named AST_TYPEDEF_NAME n] S
| g_struct_name S n : G TypeSpec S [TTok KwStruct; TIdent n] [node AST_TYPE_STRUCT [named AST_STRUCT_NAME n]] S
| g_struct_named S n ts l : G StructDecls S ts l S ->
    G TypeSpec S (TTok KwStruct :: TIdent n :: TTok LBrace :: ts ++ [TTok RBrace]) [node AST_TYPE_STRUCT [named AST_STRUCT_NAME n; node AST_STRUCT_DECL_LIST l]] S
| g_struct S ts l : G StructDecls S ts l S ->
    G TypeSpec S (TTok KwStruct :: TTok LBrace :: ts ++ [TTok RBrace]) [node AST_TYPE_STRUCT [node AST_STRUCT_DECL_LIST l]] S
| g_enum_name S n : G TypeSpec S [TTok KwEnum; TIdent n] [node AST_TYPE_ENUM [named AST_ENUM_NAME n]] S
| g_enum_named S n ts l : G Enumors S ts l S ->
    G TypeSpec S (TTok KwEnum :: TIdent n :: TTok LBrace :: ts ++ [TTok RBrace]) [node AST_TYPE_ENUM [named AST_ENUM_NAME n; node AST_ENUMOR_LIST l]] S
| g_enum S ts l : G Enumors S ts l S ->
    G TypeSpec S (TTok KwEnum :: TTok LBrace :: ts ++ [TTok RBrace]) [node AST_TYPE_ENUM [node AST_ENUMOR_LIST l]] S
| g_spec S ts a : G TypeSpec S ts [a] S -> G SpecQual S ts [a] S
| g_spec_more S ts a us l : G TypeSpec S ts [a] S -> G SpecQual S us l S -> G SpecQual S (ts ++ us) (a :: l) S
| g_decl_spec S ts a : G TypeSpec S ts [a] S -> G DeclSpecs S ts [a] S
| g_decl_spec_more S ts a us l : G TypeSpec S ts [a] S -> G DeclSpecs S us l S -> G DeclSpecs S (ts ++ us) (a :: l) S
| g_typedef S : G DeclSpecs S [TTok KwTypedef] [node AST_STG_TYPEDEF []] S
| g_typedef_more S us l : G DeclSpecs S us l S -> G DeclSpecs S (TTok KwTypedef :: us) (node AST_STG_TYPEDEF [] :: l) S
| g_type_name S ts l us x k : G SpecQual S ts l S -> G (Declor true false) S us (x :: k) S -> no_specifier S us ->
    G TypeName S (ts ++ us) [node AST_TYPE_NAME [node AST_SPEC_QUAL_LIST l; declarator_tree x k]] S
(* structures and enumerations *)
| g_struct_decls S ts a : G StructDecl S ts [a] S -> G StructDecls S ts [a] S
| g_struct_decls_more S ts a us l : G StructDecl S ts [a] S -> G StructDecls S us l S -> G StructDecls S (ts ++ us) (a :: l) S
| g_struct_decl S ts l us ds : G SpecQual S ts l S -> G StructDeclors S us ds S -> no_specifier S us ->
    G StructDecl S (ts ++ us ++ [TTok Semicolon]) [node AST_STRUCT_DECL [node AST_SPEC_QUAL_LIST l; node AST_STRUCT_DECLOR_LIST ds]] S
| g_struct_declor S ts x k : G (Declor false false) S ts (x :: k) S -> G StructDeclors S ts [declarator_tree x k] S
| g_struct_declor_more S ts x k us l : G (Declor false false) S ts (x :: k) S -> G StructDeclors S us l S ->
    G StructDeclors S (ts ++ TTok Comma :: us) (declarator_tree x k :: l) S
| g_enumor S n : G Enumor S [TIdent n] [node AST_ENUMOR [named AST_ENUM_CONST n]] S
| g_enumor_value S n ts e : G Cond S ts [e] S -> G Enumor S (TIdent n :: TTok Equal :: ts) [node AST_ENUMOR [named AST_ENUM_CONST n; e]] S
| g_enumors S ts a : G Enumor S ts [a] S -> G Enumors S ts [a] S
| g_enumors_comma S ts a : G Enumor S ts [a] S -> G Enumors S (ts ++ [TTok Comma]) [a] S
| g_enumors_more S ts a us l : G Enumor S ts [a] S -> G Enumors S us l S -> G Enumors S (ts ++ TTok Comma :: us) (a :: l) S
(* declarators; a typedef declares its name as soon as it has been read *)
| g_declor S abs td n ts x k S' : G (Direct abs td) S ts (x :: k) S' ->
    G (Declor abs td) S (repeat (TTok Asterisk) n ++ ts) (x :: k ++ repeat (node AST_PTR_DECLOR []) n) S'
| g_name S (td : bool) n ts k : let S' := if td then n :: S else S in
    G Suffixes S' ts k S' -> G (Direct false td) S (TIdent n :: ts) (named AST_IDENT_DECLOR n :: k) S'
| g_no_name S td ts k : G Suffixes S ts k S -> no_leading_name ts -> G (Direct true td) S ts (node AST_ABS_DECLOR [] :: k) S
| g_enclosed S abs td ts x k us k' S' : G (Declor abs td) S ts (x :: k) S' -> (abs = true -> k <> []) -> G Suffixes S' us k' S' ->
    G (Direct abs td) S (TTok LParen :: ts ++ TTok RParen :: us) (x :: k ++ k') S'
| g_no_suffix S : G Suffixes S [] [] S
| g_array S ts e us k : G Cond S ts [e] S -> G Suffixes S us k S ->
    G Suffixes S (TTok LBracket :: ts ++ TTok RBracket :: us) (node AST_ARRAY_DECLOR [e] :: k) S
| g_function S ts l us k : G Params S ts l S -> G Suffixes S us k S ->
    G Suffixes S (TTok LParen :: ts ++ TTok RParen :: us) (node AST_FUNC_DECLOR [node AST_PARAM_LIST l] :: k) S
| g_params S ts a : G Param S ts [a] S -> G Params S ts [a] S
| g_params_more S ts a us l : G Param S ts [a] S -> G Params S us l S -> G Params S (ts ++ TTok Comma :: us) (a :: l) S
| g_param S abs ts l us x k : G DeclSpecs S ts l S -> is_typedef l = false -> G (Declor abs false) S us (x :: k) S -> no_specifier S us ->
    G Param S (ts ++ us) [node AST_PARAM_DECL [node AST_DECL_SPECS l; declarator_tree x k]] S
(* declarations and initialisers *)
| g_init S ts a : G Assign S ts [a] S -> G Init S ts [a] S
| g_init_list S ts l : G Inits S ts l S -> G Init S (TTok LBrace :: ts ++ [TTok RBrace]) [node AST_INIT_LIST l] S
| g_inits S ts a : G Init S ts [a] S -> G Inits S ts [a] S
| g_inits_comma S ts a : G Init S ts [a] S -> G Inits S (ts ++ [TTok Comma]) [a] S
| g_inits_more S ts a us l : G Init S ts [a] S -> G Inits S us l S -> G Inits S (ts ++ TTok Comma :: us) (a :: l) S
| g_init_declor S td ts x k S' : G (Declor false td) S ts (x :: k) S' -> G (InitDeclor td) S ts [node AST_INIT_DECLOR [declarator_tree x k]] S'
| g_init_declor_value S td ts x k us i S' : G (Declor false td) S ts (x :: k) S' -> G Init S' us [i] S' ->
    G (InitDeclor td) S (ts ++ TTok Equal :: us) [node AST_INIT_DECLOR [declarator_tree x k; i]] S'
| g_init_declors S td ts a S' : G (InitDeclor td) S ts [a] S' -> G (InitDeclors td) S ts [a] S'
| g_init_declors_more S td ts a S' us l S'' : G (InitDeclor td) S ts [a] S' -> G (InitDeclors td) S' us l S'' ->
    G (InitDeclors td) S (ts ++ TTok Comma :: us) (a :: l) S''
| g_decl_empty S ts l : G DeclSpecs S ts l S -> G (Decl (is_typedef l)) S (ts ++ [TTok Semicolon]) [node AST_DECL [node AST_DECL_SPECS l]] S
| g_decl S ts l us ds S' : G DeclSpecs S ts l S -> G (InitDeclors (is_typedef l)) S us ds S' -> no_specifier S us ->
    G (Decl (is_typedef l)) S (ts ++ us ++ [TTok Semicolon]) [node AST_DECL [node AST_DECL_SPECS l; node AST_INIT_DECLOR_LIST ds]] S'
(* statements; [Stmt false]: an `else` after it cannot belong to an `if` in it *)
| g_expr_stmt S ts a : G Assign S ts [a] S -> G ExprStmt S (ts ++ [TTok Semicolon]) [node AST_EXPR_STMT [a]] S
| g_null_stmt S : G ExprStmt S [TTok Semicolon] [node AST_NULL_STMT []] S
| g_stmt_expr S o ts a : G ExprStmt S ts [a] S -> G (Stmt o) S ts [a] S
| g_stmt_compound S o ts a : G Compound S ts [a] S -> G (Stmt o) S ts [a] S
| g_case S o ts e us s : G Assign S ts [e] S -> G (Stmt o) S us [s] S -> G (Stmt o) S (TTok KwCase :: ts ++ TTok Colon :: us) [node AST_CASE_STMT [e; s]] S
| g_default S o us s : G (Stmt o) S us [s] S -> G (Stmt o) S (TTok KwDefault :: TTok Colon :: us) [node AST_DEFAULT_STMT [s]] S
| g_continue S o : G (Stmt o) S [TTok KwContinue; TTok Semicolon] [node AST_CONTINUE_STMT []] S
| g_break S o : G (Stmt o) S [TTok KwBreak; TTok Semicolon] [node AST_BREAK_STMT []] S
| g_return S o : G (Stmt o) S [TTok KwReturn; TTok Semicolon] [node AST_RET_STMT []] S
| g_return_value S o ts e : G Assign S ts [e] S -> G (Stmt o) S (TTok KwReturn :: ts ++ [TTok Semicolon]) [node AST_RET_STMT [e]] S
| g_if S ts e us s : G Assign S ts [e] S -> G (Stmt true) S us [s] S ->
    G (Stmt true) S (TTok KwIf :: TTok LParen :: ts ++ TTok RParen :: us) [node AST_IF_STMT [e; s]] S
| g_if_else S o ts e us s vs s' : G Assign S ts [e] S -> G (Stmt false) S us [s] S -> G (Stmt o) S vs [s'] S ->
    G (Stmt o) S (TTok KwIf :: TTok LParen :: ts ++ TTok RParen :: us ++ TTok KwElse :: vs) [node AST_IF_STMT [e; s; s']] S
| g_switch S o ts e us s : G Assign S ts [e] S -> G (Stmt o) S us [s] S ->
    G (Stmt o) S (TTok KwSwitch :: TTok LParen :: ts ++ TTok RParen :: us) [node AST_SWITCH_STMT [e; s]] S
| g_while S o ts e us s : G Assign S ts [e] S -> G (Stmt o) S us [s] S ->
    G (Stmt o) S (TTok KwWhile :: TTok LParen :: ts ++ TTok RParen :: us) [node AST_WHILE_STMT [e; s]] S
| g_for S o N is i cs c us s : N = ExprStmt \/ N = Decl false -> G N S is [i] S -> G ExprStmt S cs [c] S -> G (Stmt o) S us [s] S ->
    G (Stmt o) S (TTok KwFor :: TTok LParen :: is ++ cs ++ TTok RParen :: us) [node AST_FOR_STMT [i; c; node AST_NULL_STMT []; s]] S
| g_for_step S o N is i cs c ts e us s : N = ExprStmt \/ N = Decl false -> G N S is [i] S -> G ExprStmt S cs [c] S -> G Assign S ts [e] S -> G (Stmt o) S us [s] S ->
    G (Stmt o) S (TTok KwFor :: TTok LParen :: is ++ cs ++ ts ++ TTok RParen :: us) [node AST_FOR_STMT [i; c; node AST_EXPR_STMT [e]; s]] S
| g_compound S ts l S' : G Items S ts l S' -> G Compound S (TTok LBrace :: ts ++ [TTok RBrace]) [node AST_CMPD_STMT l] S
| g_no_items S : G Items S [] [] S
| g_item S N ts a S' us l S'' : N = Stmt true \/ N = Decl false \/ N = Decl true -> G N S ts [a] S' -> G Items S' us l S'' -> G Items S (ts ++ us) (a :: l) S''
(* programs *)
| g_function_definition S ts l us x k S' vs b : G DeclSpecs S ts l S -> G (Declor false (is_typedef l)) S us (x :: k) S' -> no_specifier S us -> G Compound S' vs [b] S' ->
    G External S (ts ++ us ++ vs) [node AST_FUNC_DEF [node AST_DECL_SPECS l; declarator_tree x k; b]] S'
| g_declaration S td ts a S' : G (Decl td) S ts [a] S' -> G External S ts [a] S'
| g_unit S ts a S' : G External S ts [a] S' -> G Unit S ts [a] S'
| g_unit_more S ts a S' us l S'' : G External S ts [a] S' -> G Unit S' us l S'' -> G Unit S (ts ++ us) (a :: l) S''.

(** no `typedef` between parentheses ([d] of them are open) *)
Fixpoint typedefs_outside (d : nat) (ts : list token) : Prop :=
  match ts with
  | [] => True
  | t :: r =>
    match t with
    | TTok LParen => typedefs_outside (S d) r
    | TTok RParen => typedefs_outside (pred d) r
    | TTok KwTypedef => d = O /\ typedefs_outside d r
    | _ => typedefs_outside d r
    end
  end.
