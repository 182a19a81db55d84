(** C12 and C13: writing expressions and declarations as tokens.

    Independent of the grammar and of the parser: operators with their precedence, the parentheses that the
    precedence makes necessary, and the spelling of a type around a name. *)
From Verif Require Import Base LiteralModel LexerModel AstModel DtypeModel.
Open Scope nat_scope.

(* ------------------------------------------------------------- declarations *)
Inductive basic := BVoid | BChar | BInt | BUnsigned | BLong | BUnsignedLong | BLongLong | BUnsignedLongLong | BStruct (n : name) | BEnum (n : name) | BTypedef (n : name).
Inductive type := TBasic (b : basic) | TPointer (t : type) | TArray (n : Z) (t : type)
| TFunction (ps : list (option name * type)) (t : type) (* parameters with or without a name *)
| TParens (t : type) (* the same as [t], with superfluous parentheses around the declarator *).

Definition specifiers (b : basic) : list token :=
  match b with
  | BVoid => [TTok KwVoid] | BChar => [TTok KwChar] | BInt => [TTok KwInt] | BUnsigned => [TTok KwUnsigned] | BLong => [TTok KwLong] | BUnsignedLong => [TTok KwUnsigned; TTok KwLong]
  | BLongLong => [TTok KwLong; TTok KwLong] | BUnsignedLongLong => [TTok KwUnsigned; TTok KwLong; TTok KwLong]
  | BStruct n => [TTok KwStruct; TIdent n] | BEnum n => [TTok KwEnum; TIdent n] | BTypedef n => [TIdent n] end.
Fixpoint separated (l : list (list token)) : list token :=
  match l with
  | [] => []
  | [ts] => ts
  | ts :: r => ts ++ TTok Comma :: separated r
  end.
Definition parens (ts : list token) : list token := TTok LParen :: ts ++ [TTok RParen].
Definition number (n : Z) : iliteral := new_signed IInt n.
(** [spell t inner star]: the tokens that give the declarator [inner] the type [t]; [star]: [inner] begins with `*` *)
Fixpoint spell (t : type) (inner : list token) (star : bool) : list token :=
  match t with
  | TBasic b => specifiers b ++ inner
  | TPointer t => spell t (TTok Asterisk :: inner) true
  | TArray n t => spell t ((if star then parens inner else inner) ++ [TTok LBracket; TInt (number n); TTok RBracket]) false
  | TFunction ps t =>
    spell t ((if star then parens inner else inner) ++
             parens (match ps with
                     | [] => [TTok KwVoid]
                     | _ => separated (map (fun p => spell (snd p) (match fst p with Some n => [TIdent n] | None => [] end) false) ps) end)) false
  | TParens t => match inner with [] => spell t [] false | _ => spell t (parens inner) false end
  end.
(** `int *x[3]` and so on *)
Definition declare (t : type) (n : name) : list token := spell t [TIdent n] false.

(** The meaning of a type; parameters of array and function type are pointers (6.7.6.3). *)
Definition meaning_basic (b : basic) : dtype :=
  match b with
  | BVoid => DTYPE_VOID | BChar => DTYPE_CHAR | BInt => DTYPE_INT | BUnsigned => DTYPE_UNSIGNED_INT | BLong => DTYPE_LONG | BUnsignedLong => DTYPE_UNSIGNED_LONG
  | BLongLong => DTYPE_LONGLONG | BUnsignedLongLong => DTYPE_UNSIGNED_LONGLONG
  | BStruct _ | BEnum _ | BTypedef _ => DTYPE_VOID (* not given meaning here: see [proper] *) end.
Definition adjust (d : dtype) : dtype := match d with DTYPE_ARRAY e _ => DTYPE_POINTER e | DTYPE_FUNCTION _ _ => DTYPE_POINTER d | _ => d end.
Fixpoint meaning (t : type) : dtype :=
  match t with
  | TBasic b => meaning_basic b
  | TPointer t => DTYPE_POINTER (meaning t)
  | TArray n t => DTYPE_ARRAY (meaning t) n
  | TFunction ps t => DTYPE_FUNCTION (map (fun p => (fst p, adjust (meaning (snd p)))) ps) (meaning t)
  | TParens t => meaning t
  end.
(** types that exist (6.7.6.2, 6.7.6.3): arrays of objects with a positive bound, functions that do not return arrays
    or functions, parameters that are not `void` and have different names. Only types made of keywords: what a tag or a
    typedef name means depends on the declarations before. *)
Fixpoint names_of (ps : list (option name * type)) : list name :=
  match ps with [] => [] | (Some n, _) :: r => n :: names_of r | (None, _) :: r => names_of r end.
Fixpoint proper (t : type) : Prop :=
  match t with
  | TBasic b => match b with BStruct _ | BEnum _ | BTypedef _ => False | _ => True end
  | TPointer t | TParens t => proper t
  | TArray n t => (0 < n < 2 ^ 31)%Z /\ proper t /\ match meaning t with DTYPE_VOID | DTYPE_FUNCTION _ _ => False | _ => True end
  | TFunction ps t => fold_right and True (map (fun p => proper (snd p) /\ meaning (snd p) <> DTYPE_VOID) ps) /\ NoDup (names_of ps) /\
      proper t /\ match meaning t with DTYPE_ARRAY _ _ | DTYPE_FUNCTION _ _ => False | _ => True end
  end.

(** the tree of a declarator, abstract or with a name, and of a type name *)
Definition n0 (t : asttype) (l : list ast) : ast := Ast t PNone l.
Definition specifier_trees (b : basic) : list ast :=
  match b with
  | BVoid => [n0 AST_TYPE_VOID []] | BChar => [n0 AST_TYPE_CHAR []] | BInt => [n0 AST_TYPE_INT []] | BUnsigned => [n0 AST_TYPE_UNSIGNED []] | BLong => [n0 AST_TYPE_LONG []]
  | BUnsignedLong => [n0 AST_TYPE_UNSIGNED []; n0 AST_TYPE_LONG []] | BLongLong => [n0 AST_TYPE_LONG []; n0 AST_TYPE_LONG []]
  | BUnsignedLongLong => [n0 AST_TYPE_UNSIGNED []; n0 AST_TYPE_LONG []; n0 AST_TYPE_LONG []]
  | BStruct n => [n0 AST_TYPE_STRUCT [Ast AST_STRUCT_NAME (PName n) []]] | BEnum n => [n0 AST_TYPE_ENUM [Ast AST_ENUM_NAME (PName n) []]]
  | BTypedef n => [Ast AST_TYPEDEF_NAME (PName n) []] end.
Fixpoint basic_of (t : type) : basic := match t with TBasic b => b | TPointer t | TArray _ t | TFunction _ t | TParens t => basic_of t end.
(** in the tree the derivation nearest to the name is the outermost *)
Fixpoint declarator (t : type) (x : ast) : ast :=
  match t with
  | TBasic _ => x
  | TPointer t => n0 AST_PTR_DECLOR [declarator t x]
  | TArray n t => n0 AST_ARRAY_DECLOR [declarator t x; Ast AST_INT_EXPR (PInt (number n)) []]
  | TParens t => declarator t x
  | TFunction ps t =>
    let param p := n0 AST_PARAM_DECL [n0 AST_DECL_SPECS (specifier_trees (basic_of (snd p)));
                                      declarator (snd p) (match fst p with Some n => Ast AST_IDENT_DECLOR (PName n) [] | None => n0 AST_ABS_DECLOR [] end)] in
    n0 AST_FUNC_DECLOR [declarator t x; n0 AST_PARAM_LIST (match ps with [] => [n0 AST_PARAM_DECL [n0 AST_DECL_SPECS [n0 AST_TYPE_VOID []]; n0 AST_ABS_DECLOR []]] | _ => map param ps end)]
  end.
Definition type_tree (t : type) : ast :=
  n0 AST_TYPE_NAME [n0 AST_SPEC_QUAL_LIST (specifier_trees (basic_of t)); declarator t (n0 AST_ABS_DECLOR [])].

(* -------------------------------------------------------------- expressions *)
Inductive binop := OLor | OLand | OOr | OXor | OAnd | OEq | ONe | OLt | OGt | OLe | OGe | OShl | OShr | OAdd | OSub | OMul | ODiv | OMod.
Inductive asgop := AsSet | AsMul | AsDiv | AsMod | AsAdd | AsSub | AsShl | AsShr | AsAnd | AsXor | AsOr.
Inductive unop := UAddr | UDeref | UPlus | UMinus | UNot | ULnot.

Inductive expr :=
| EName (n : name) | EInt (i : iliteral) | EChar (i : iliteral) | EString (s : list Z)
| EIndex (a b : expr) | ECall (a : expr) (args : list expr) | EDot (a : expr) (n : name) | EArrow (a : expr) (n : name)
| EPostInc (a : expr) | EPostDec (a : expr) | EPreInc (a : expr) | EPreDec (a : expr) | EUnary (o : unop) (a : expr) | ESizeof (a : expr) | ESizeofType (t : type) | ECast (t : type) (a : expr)
| EBinary (o : binop) (a b : expr) | ECond (a b c : expr) | EAssign (o : asgop) (a b : expr).

(** precedence, from 1 (assignment) to 16 (names and constants); 13 is the level of casts *)
Definition binary_prec (o : binop) : nat :=
  match o with
  | OLor => 3 | OLand => 4 | OOr => 5 | OXor => 6 | OAnd => 7 | OEq | ONe => 8 | OLt | OGt | OLe | OGe => 9 | OShl | OShr => 10
  | OAdd | OSub => 11 | OMul | ODiv | OMod => 12 end.
Definition prec (e : expr) : nat :=
  match e with
  | EName _ | EInt _ | EChar _ | EString _ => 16
  | EIndex _ _ | ECall _ _ | EDot _ _ | EArrow _ _ | EPostInc _ | EPostDec _ => 15
  | EPreInc _ | EPreDec _ | EUnary _ _ | ESizeof _ | ESizeofType _ => 14
  | ECast _ _ => 13
  | EBinary o _ _ => binary_prec o
  | ECond _ _ _ => 2
  | EAssign _ _ _ => 1
  end.
Definition binary_token (o : binop) : ctype :=
  match o with
  | OLor => VBarVBar | OLand => AndAnd | OOr => VBar | OXor => Caret | OAnd => And | OEq => EqualEqual | ONe => ExclamEqual
  | OLt => Less | OGt => Greater | OLe => LessEqual | OGe => GreaterEqual | OShl => LessLess | OShr => GreaterGreater
  | OAdd => Plus | OSub => Minus | OMul => Asterisk | ODiv => Slash | OMod => Percent end.
Definition binary_node (o : binop) : asttype :=
  match o with
  | OLor => AST_LOR_EXPR | OLand => AST_LAND_EXPR | OOr => AST_OR_EXPR | OXor => AST_XOR_EXPR | OAnd => AST_AND_EXPR | OEq => AST_EQUAL_EXPR | ONe => AST_NEQUAL_EXPR
  | OLt => AST_LESS_EXPR | OGt => AST_GREATER_EXPR | OLe => AST_LESSEQ_EXPR | OGe => AST_GREATEREQ_EXPR | OShl => AST_LSHIFT_EXPR | OShr => AST_RSHIFT_EXPR
  | OAdd => AST_ADD_EXPR | OSub => AST_SUB_EXPR | OMul => AST_MUL_EXPR | ODiv => AST_DIV_EXPR | OMod => AST_MOD_EXPR end.
Definition assign_token (o : asgop) : ctype :=
  match o with
  | AsSet => Equal | AsMul => AsteriskEqual | AsDiv => SlashEqual | AsMod => PercentEqual | AsAdd => PlusEqual | AsSub => MinusEqual
  | AsShl => LessLessEqual | AsShr => GreaterGreaterEqual | AsAnd => AndEqual | AsXor => CaretEqual | AsOr => VBarEqual end.
Definition assign_node (o : asgop) : asttype :=
  match o with
  | AsSet => AST_ASSIGN_EXPR | AsMul => AST_MUL_ASSIGN_EXPR | AsDiv => AST_DIV_ASSIGN_EXPR | AsMod => AST_MOD_ASSIGN_EXPR | AsAdd => AST_ADD_ASSIGN_EXPR
  | AsSub => AST_SUB_ASSIGN_EXPR | AsShl => AST_LSHIFT_ASSIGN_EXPR | AsShr => AST_RSHIFT_ASSIGN_EXPR | AsAnd => AST_AND_ASSIGN_EXPR
  | AsXor => AST_XOR_ASSIGN_EXPR | AsOr => AST_OR_ASSIGN_EXPR end.
Definition unary_token (o : unop) : ctype :=
  match o with UAddr => And | UDeref => Asterisk | UPlus => Plus | UMinus => Minus | UNot => Tilde | ULnot => Exclam end.
Definition unary_node (o : unop) : asttype :=
  match o with UAddr => AST_ADDR_EXPR | UDeref => AST_INDIR_EXPR | UPlus => AST_POS_EXPR | UMinus => AST_NEG_EXPR | UNot => AST_NOT_EXPR | ULnot => AST_LNOT_EXPR end.

(** the tree of an expression *)
Fixpoint tree (e : expr) : ast :=
  match e with
  | EName n => Ast AST_IDENT_EXPR (PName n) []
  | EInt i => Ast AST_INT_EXPR (PInt i) []
  | EChar i => Ast AST_CHAR_EXPR (PInt i) []
  | EString s => Ast AST_STRING_EXPR (PStr s) []
  | EIndex a b => n0 AST_SUBSC_EXPR [tree a; tree b]
  | ECall a l => n0 AST_CALL_EXPR [tree a; n0 AST_ARG_LIST (map tree l)]
  | EDot a n => n0 AST_MEMBER_EXPR [tree a; Ast AST_IDENT_EXPR (PName n) []]
  | EArrow a n => n0 AST_TOMEMBER_EXPR [tree a; Ast AST_IDENT_EXPR (PName n) []]
  | EPostInc a => n0 AST_POSTINC_EXPR [tree a]
  | EPostDec a => n0 AST_POSTDEC_EXPR [tree a]
  | EPreInc a => n0 AST_PREINC_EXPR [tree a]
  | EPreDec a => n0 AST_PREDEC_EXPR [tree a]
  | EUnary o a => n0 (unary_node o) [tree a]
  | ESizeof a => n0 AST_SIZEOF_EXPR [tree a]
  | ESizeofType t => n0 AST_SIZEOF_EXPR [type_tree t]
  | ECast t a => n0 AST_CAST_EXPR [type_tree t; tree a]
  | EBinary o a b => n0 (binary_node o) [tree a; tree b]
  | ECond a b c => n0 AST_COND_EXPR [tree a; tree b; tree c]
  | EAssign o a b => n0 (assign_node o) [tree a; tree b]
  end.

(** the tokens of an expression where one of precedence [p] or higher is needed: in parentheses if its own is lower *)
Fixpoint write (p : nat) (e : expr) : list token :=
  let ts :=
    match e with
    | EName n => [TIdent n]
    | EInt i => [TInt i]
    | EChar i => [TChar i]
    | EString s => [TStr s]
    | EIndex a b => write 15 a ++ [TTok LBracket] ++ write 1 b ++ [TTok RBracket]
    | ECall a l => write 15 a ++ [TTok LParen] ++ separated (map (write 1) l) ++ [TTok RParen]
    | EDot a n => write 15 a ++ [TTok Dot; TIdent n]
    | EArrow a n => write 15 a ++ [TTok Arrow; TIdent n]
    | EPostInc a => write 15 a ++ [TTok PlusPlus]
    | EPostDec a => write 15 a ++ [TTok MinusMinus]
    | EPreInc a => TTok PlusPlus :: write 14 a
    | EPreDec a => TTok MinusMinus :: write 14 a
    | EUnary o a => TTok (unary_token o) :: write 13 a
    | ESizeof a => TTok KwSizeof :: write 14 a
    | ESizeofType t => TTok KwSizeof :: parens (spell t [] false)
    | ECast t a => parens (spell t [] false) ++ write 13 a
    | EBinary o a b => write (binary_prec o) a ++ [TTok (binary_token o)] ++ write (S (binary_prec o)) b
    | ECond a b c => write 3 a ++ [TTok Question] ++ write 1 b ++ [TTok Colon] ++ write 2 c
    | EAssign o a b => write 14 a ++ [TTok (assign_token o)] ++ write 1 b
    end in
  if prec e <? p then parens ts else ts.

(** ... the identifiers used as objects, functions, constants or parameters, and those used as types *)
Fixpoint type_names (t : type) : list name :=
  match t with
  | TBasic _ => []
  | TPointer t | TArray _ t | TParens t => type_names t
  | TFunction ps t => concat (map (fun p => match fst p with Some n => [n] | None => [] end ++ type_names (snd p)) ps) ++ type_names t
  end.
Fixpoint type_typedefs (t : type) : list name :=
  match t with
  | TBasic b => match b with BTypedef n => [n] | _ => [] end
  | TPointer t | TArray _ t | TParens t => type_typedefs t
  | TFunction ps t => concat (map (fun p => type_typedefs (snd p)) ps) ++ type_typedefs t
  end.
(** `int (T)` with a typedef name T and nothing before the parenthesis: the parser takes T for the declared name.
    [clear] types have no such part; [empty]: nothing has been written before. *)
Fixpoint clear (empty : bool) (t : type) : Prop :=
  match t with
  | TBasic _ => True
  | TPointer t | TArray _ t => clear false t
  | TParens t => clear empty t
  | TFunction ps t =>
    (empty = true -> match ps with (_, p) :: _ => match basic_of p with BTypedef _ => False | _ => True end | [] => True end) /\
    fold_right and True (map (fun p => clear (match fst p with Some _ => false | None => true end) (snd p)) ps) /\ clear false t
  end.
Fixpoint clear_expr (e : expr) : Prop :=
  match e with
  | EName _ | EInt _ | EChar _ | EString _ => True
  | ESizeofType t => clear true t
  | ECall a l => clear_expr a /\ fold_right and True (map clear_expr l)
  | EDot a _ | EArrow a _ | EPostInc a | EPostDec a | EPreInc a | EPreDec a | EUnary _ a | ESizeof a => clear_expr a
  | ECast t a => clear true t /\ clear_expr a
  | EIndex a b | EBinary _ a b | EAssign _ a b => clear_expr a /\ clear_expr b
  | ECond a b c => clear_expr a /\ clear_expr b /\ clear_expr c
  end.
Section Collect.
Variable of_type : type -> list name.
Variable of_name : name -> list name.
Fixpoint collect (e : expr) : list name :=
  match e with
  | EName n => of_name n
  | EInt _ | EChar _ | EString _ => []
  | ESizeofType t => of_type t
  | ECall a l => collect a ++ concat (map collect l)
  | EDot a _ | EArrow a _ | EPostInc a | EPostDec a | EPreInc a | EPreDec a | EUnary _ a | ESizeof a => collect a
  | ECast t a => of_type t ++ collect a
  | EIndex a b | EBinary _ a b | EAssign _ a b => collect a ++ collect b
  | ECond a b c => collect a ++ collect b ++ collect c
  end.
End Collect.
Definition names : expr -> list name := collect type_names (fun n => [n]).
Definition typedefs : expr -> list name := collect type_typedefs (fun _ => []).

(** a function that returns an expression, and the typedefs before it *)
Definition main_tokens (n : name) (ts : list token) : list token :=
  [TTok KwInt; TIdent n; TTok LParen; TTok KwVoid; TTok RParen; TTok LBrace; TTok KwReturn] ++ ts ++ [TTok Semicolon; TTok RBrace].
Definition typedef_tokens (n : name) : list token := [TTok KwTypedef; TTok KwInt; TIdent n; TTok Semicolon].
Definition typedef_tree (n : name) : ast :=
  n0 AST_DECL [n0 AST_DECL_SPECS [n0 AST_STG_TYPEDEF []; n0 AST_TYPE_INT []]; n0 AST_INIT_DECLOR_LIST [n0 AST_INIT_DECLOR [Ast AST_IDENT_DECLOR (PName n) []]]].
Definition main_tree (n : name) (e : ast) : ast :=
  n0 AST_FUNC_DEF [n0 AST_DECL_SPECS [n0 AST_TYPE_INT []];
    n0 AST_FUNC_DECLOR [Ast AST_IDENT_DECLOR (PName n) []; n0 AST_PARAM_LIST [n0 AST_PARAM_DECL [n0 AST_DECL_SPECS [n0 AST_TYPE_VOID []]; n0 AST_ABS_DECLOR []]]];
    n0 AST_CMPD_STMT [n0 AST_RET_STMT [e]]].
