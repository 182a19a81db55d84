(** Model of src/parser: recursive descent over the token vector, function by function.

    The C functions call each other recursively and loop with `while (1)`. The model writes each
    body as an ordinary definition over an argument [rec], the parser to be called for another
    nonterminal, and ties the knot in [parse] with fuel; loops are nonterminals of their own that
    carry the children collected so far. *)
From Verif Require Export AstModel.
Open Scope Z_scope.

(** parser/parser.h:8-13 Parser. [toks] are the tokens from [index] on (moving the index back is
    putting the earlier remainder back); [tdnames] are the elements of typedef_names_set, which is
    only ever added to, copied and queried (correct for such histories by the set theorems);
    [tdflag] is typedef_flag. *)
Record pst := mkpst { toks : list token; tdnames : list name; tdflag : bool }.

(** A parser returns [Ok (Some a, st)] on success and [Ok (None, st)] on a parse error: the state
    after an error is observable because callers backtrack. *)
Definition pres := res (option ast * pst).
Definition pok (a : ast) (st : pst) : pres := Ok (Some a, st).
Definition perr (st : pst) : pres := Ok (None, st).

(** The common pattern `parserret_assign(...); if (err != NULL) return error;` *)
Definition pbind (m : pres) (k : ast -> pst -> pres) : pres :=
  do r <- m;
  match r with
  | (Some a, st) => k a st
  | (None, st) => perr st
  end.
Notation "'ptry' a ',' st <- m ; k" := (pbind m (fun a st => k))
  (at level 200, a name, st name, m at level 100, k at level 200, right associativity) : res_scope.

Definition with_toks (st : pst) (ts : list token) : pst := mkpst ts (tdnames st) (tdflag st).
Definition with_flag (st : pst) (b : bool) : pst := mkpst (toks st) (tdnames st) b.
Definition with_names (st : pst) (s : list name) : pst := mkpst (toks st) s (tdflag st).

Definition is_typedef_name (s : list name) (n : name) : bool := existsb (name_eqb n) s.

(** `vector_at(parser->ctokens, parser->index)`: reading past the last token is undefined. *)
Definition peek (st : pst) : res token := match toks st with [] => UB | t :: _ => Ok t end.
(** `parser->index++` *)
Definition advance (st : pst) : pst := with_toks st (tl (toks st)).

(** parser/util.c:61-68 consume_ctoken *)
Definition consume (t : ctype) (st : pst) (k : pst -> pres) : pres :=
  do tok <- peek st;
  if ctype_eqb (ttype tok) t then k (advance st) else perr st.

(** parser/util.c:49-51 ctoken_is_storage_class_specifier *)
Definition is_storage_class (t : token) : bool := ctype_eqb (ttype t) KwTypedef.
(** parser/util.c:53-59 ctoken_is_type_specifier *)
Definition is_type_specifier (s : list name) (t : token) : bool :=
  match t with
  | TTok KwVoid | TTok KwChar | TTok KwInt | TTok KwLong | TTok KwUnsigned | TTok KwStruct | TTok KwEnum => true
  | TIdent n => is_typedef_name s n
  | _ => false
  end.
(** parser/util.c:44-47 item_may_decl *)
Definition item_may_decl (st : pst) (t : token) : bool :=
  is_storage_class t || is_type_specifier (tdnames st) t.

(** The left-associative binary levels of parser/expression.c, from the loosest. *)
Inductive level := LLor | LLand | LOr | LXor | LAnd | LEq | LRel | LShift | LAdd | LMul.

Inductive nt :=
| NTransUnit (acc : list ast) | NFuncDef
| NDecl | NTypeName | NDeclSpecs (acc : list ast) (flag : bool) | NSpecQual (acc : list ast)
| NTypeSpec | NStruct | NStructDeclList (acc : list ast) | NStructDecl | NStructDeclorList (acc : list ast)
| NEnum | NEnumorList (acc : list ast) | NEnumor
| NInitDeclorList (acc : list ast) | NInitDeclor
| NDeclor (abs : bool) | NDirect (abs : bool) | NSuffixes (acc : list ast)
| NParamList (acc : list ast) | NParamDecl | NInit | NInitList (acc : list ast)
| NStmt | NCase | NDefault | NCompound | NItems (acc : list ast) | NContinue | NBreak | NReturn
| NExprStmt | NIf | NSwitch | NWhile | NFor
| NAssign (stack : list ast) | NCond | NLevel (l : level) | NTail (l : level) (a : ast)
| NCast (stack : list ast) | NUnary | NPreInc | NUnaryOp | NSizeof | NPostfix | NPostfixTail (a : ast)
| NArgs | NArgsTail (acc : list ast) | NPrimary.

Section Bodies.
Variable rec : nt -> pst -> pres.

(* ---------------------------------------------------------------- expression.c *)

(** parser/expression.c:9-12 parse_expr, 14-17 parse_constant_expr *)
Definition parse_expr : pst -> pres := rec (NAssign []).
Definition parse_constant_expr : pst -> pres := rec NCond.

(** The assignment operators of parser/expression.c:38-81. *)
Definition assign_op (t : ctype) : option asttype :=
  match t with
  | Equal => Some AST_ASSIGN_EXPR
  | AsteriskEqual => Some AST_MUL_ASSIGN_EXPR
  | SlashEqual => Some AST_DIV_ASSIGN_EXPR
  | PercentEqual => Some AST_MOD_ASSIGN_EXPR
  | PlusEqual => Some AST_ADD_ASSIGN_EXPR
  | MinusEqual => Some AST_SUB_ASSIGN_EXPR
  | LessLessEqual => Some AST_LSHIFT_ASSIGN_EXPR
  | GreaterGreaterEqual => Some AST_RSHIFT_ASSIGN_EXPR
  | AndEqual => Some AST_AND_ASSIGN_EXPR
  | CaretEqual => Some AST_XOR_ASSIGN_EXPR
  | VBarEqual => Some AST_OR_ASSIGN_EXPR
  | _ => None
  end.

(** Popping the stack: each popped node gets the tree built so far as its last child
    (parser/expression.c:98-103, 551-555). The head of the list is the top of the stack. *)
Fixpoint pop_stack (stack : list ast) (a : ast) : ast :=
  match stack with
  | [] => a
  | top :: rest => pop_stack rest (ast_push top a)
  end.

(** parser/expression.c:90-106, the end of parse_assignment_expr *)
Definition assign_end (stack : list ast) (st : pst) : pres :=
  ptry a, st <- rec NCond st; pok (pop_stack stack a) st.

(** parser/expression.c:19-107 parse_assignment_expr; one turn of the loop *)
Definition parse_assign (stack : list ast) (st : pst) : pres :=
  let index := toks st in
  do r <- rec NUnary st;
  match r with
  | (None, st) => assign_end stack (with_toks st index)
  | (Some a, st) =>
    do t <- peek st;
    match assign_op (ttype t) with
    | Some ty => rec (NAssign (new_ast ty [a] :: stack)) (advance st)
    | None => assign_end stack (with_toks st index)
    end
  end.

(** parser/expression.c:109-148 parse_conditional_expr *)
Definition parse_cond (st : pst) : pres :=
  ptry a, st <- rec (NLevel LLor) st;
  do t <- peek st;
  if negb (ctype_eqb (ttype t) Question) then pok a st else
  ptry b, st <- parse_expr (advance st);
  consume Colon st (fun st =>
  ptry c, st <- rec NCond st;
  pok (new_ast AST_COND_EXPR [a; b; c]) st).

(** The operand parser and the operators of each level: parser/expression.c:150-178 (||), 180-208 (&&),
    210-238 (|), 240-268 (^), 270-298 (&), 300-336 (== !=), 338-390 (< > <= >=), 392-428 (<< >>),
    430-466 (+ -), 468-512 ( * / % ). *)
Definition operand (l : level) : nt :=
  match l with
  | LLor => NLevel LLand
  | LLand => NLevel LOr
  | LOr => NLevel LXor
  | LXor => NLevel LAnd
  | LAnd => NLevel LEq
  | LEq => NLevel LRel
  | LRel => NLevel LShift
  | LShift => NLevel LAdd
  | LAdd => NLevel LMul
  | LMul => NCast []
  end.
Definition level_op (l : level) (t : ctype) : option asttype :=
  match l, t with
  | LLor, VBarVBar => Some AST_LOR_EXPR
  | LLand, AndAnd => Some AST_LAND_EXPR
  | LOr, VBar => Some AST_OR_EXPR
  | LXor, Caret => Some AST_XOR_EXPR
  | LAnd, And => Some AST_AND_EXPR
  | LEq, EqualEqual => Some AST_EQUAL_EXPR
  | LEq, ExclamEqual => Some AST_NEQUAL_EXPR
  | LRel, Less => Some AST_LESS_EXPR
  | LRel, Greater => Some AST_GREATER_EXPR
  | LRel, LessEqual => Some AST_LESSEQ_EXPR
  | LRel, GreaterEqual => Some AST_GREATEREQ_EXPR
  | LShift, LessLess => Some AST_LSHIFT_EXPR
  | LShift, GreaterGreater => Some AST_RSHIFT_EXPR
  | LAdd, Plus => Some AST_ADD_EXPR
  | LAdd, Minus => Some AST_SUB_EXPR
  | LMul, Asterisk => Some AST_MUL_EXPR
  | LMul, Slash => Some AST_DIV_EXPR
  | LMul, Percent => Some AST_MOD_EXPR
  | _, _ => None
  end.
(** The ten functions of parser/expression.c:150-512 have the same text up to the table above. *)
Definition parse_level (l : level) (st : pst) : pres :=
  ptry a, st <- rec (operand l) st; rec (NTail l a) st.
Definition parse_tail (l : level) (a : ast) (st : pst) : pres :=
  do t <- peek st;
  match level_op l (ttype t) with
  | Some ty =>
    ptry b, st <- rec (operand l) (advance st);
    rec (NTail l (new_ast ty [a; b])) st
  | None => pok a st
  end.

(** parser/expression.c:545-558, the end of parse_cast_expr *)
Definition cast_end (stack : list ast) (st : pst) : pres :=
  ptry a, st <- rec NUnary st; pok (pop_stack stack a) st.
(** parser/expression.c:514-559 parse_cast_expr; one turn of the loop *)
Definition parse_cast (stack : list ast) (st : pst) : pres :=
  let index := toks st in
  do t <- peek st;
  if negb (ctype_eqb (ttype t) LParen) then cast_end stack st else
  do r <- rec NTypeName (advance st);
  match r with
  | (None, st) => cast_end stack (with_toks st index)
  | (Some a, st) =>
    consume RParen st (fun st => rec (NCast (new_ast AST_CAST_EXPR [a] :: stack)) st)
  end.

(** parser/expression.c:561-595 parse_unary_expr *)
Definition parse_unary (st : pst) : pres :=
  do t <- peek st;
  match ttype t with
  | PlusPlus | MinusMinus => rec NPreInc st
  | And | Asterisk | Plus | Minus | Tilde | Exclam => rec NUnaryOp st
  | KwSizeof => rec NSizeof st
  | _ => rec NPostfix st
  end.

(** parser/expression.c:597-622 parse_preinc_predec *)
Definition parse_preinc (st : pst) : pres :=
  do t <- peek st;
  ptry a, st <- rec NUnary (advance st);
  match ttype t with
  | PlusPlus => pok (new_ast AST_PREINC_EXPR [a]) st
  | MinusMinus => pok (new_ast AST_PREDEC_EXPR [a]) st
  | _ => perr st
  end.

(** parser/expression.c:624-661 parse_unary_operator_expr *)
Definition parse_unary_op (st : pst) : pres :=
  do t <- peek st;
  ptry a, st <- rec (NCast []) (advance st);
  match ttype t with
  | And => pok (new_ast AST_ADDR_EXPR [a]) st
  | Asterisk => pok (new_ast AST_INDIR_EXPR [a]) st
  | Plus => pok (new_ast AST_POS_EXPR [a]) st
  | Minus => pok (new_ast AST_NEG_EXPR [a]) st
  | Tilde => pok (new_ast AST_NOT_EXPR [a]) st
  | Exclam => pok (new_ast AST_LNOT_EXPR [a]) st
  | _ => perr st
  end.

(** parser/expression.c:663-700 parse_sizeof_operator_expr *)
Definition parse_sizeof (st : pst) : pres :=
  consume KwSizeof st (fun st =>
  let index := toks st in
  do r <- rec NUnary st;
  match r with
  | (Some a, st) => pok (new_ast AST_SIZEOF_EXPR [a]) st
  | (None, st) =>
    consume LParen (with_toks st index) (fun st =>
    ptry a, st <- rec NTypeName st;
    consume RParen st (fun st => pok (new_ast AST_SIZEOF_EXPR [a]) st))
  end).

(** parser/expression.c:702-710, the start of parse_postfix_expr *)
Definition parse_postfix (st : pst) : pres :=
  ptry a, st <- rec NPrimary st; rec (NPostfixTail a) st.
(** parser/expression.c:735-742, 746-753: the member name after `.` or `->` *)
Definition member_name (ty : asttype) (a : ast) (st : pst) : pres :=
  do t <- peek st;
  match t with
  | TIdent n => rec (NPostfixTail (new_ast ty [a; new_identifier_ast AST_IDENT_EXPR n])) (advance st)
  | _ => perr st
  end.
(** parser/expression.c:712-770, one turn of the loop of parse_postfix_expr *)
Definition parse_postfix_tail (a : ast) (st : pst) : pres :=
  do t <- peek st;
  match ttype t with
  | LBracket =>
    ptry b, st <- parse_expr (advance st);
    consume RBracket st (fun st => rec (NPostfixTail (new_ast AST_SUBSC_EXPR [a; b])) st)
  | LParen =>
    ptry b, st <- rec NArgs (advance st);
    consume RParen st (fun st => rec (NPostfixTail (new_ast AST_CALL_EXPR [a; b])) st)
  | Dot => member_name AST_MEMBER_EXPR a (advance st)
  | Arrow => member_name AST_TOMEMBER_EXPR a (advance st)
  | PlusPlus => rec (NPostfixTail (new_ast AST_POSTINC_EXPR [a])) (advance st)
  | MinusMinus => rec (NPostfixTail (new_ast AST_POSTDEC_EXPR [a])) (advance st)
  | _ => pok a st
  end.

(** parser/expression.c:772-801 parse_argument_expr_list *)
Definition parse_args (st : pst) : pres :=
  do t <- peek st;
  if ctype_eqb (ttype t) RParen then pok (new_ast AST_ARG_LIST []) st else rec (NArgsTail []) st.
Definition parse_args_tail (acc : list ast) (st : pst) : pres :=
  ptry a, st <- rec (NAssign []) st;
  do t <- peek st;
  if ctype_eqb (ttype t) Comma then rec (NArgsTail (acc ++ [a])) (advance st)
  else pok (new_ast AST_ARG_LIST (acc ++ [a])) st.

(** parser/expression.c:803-849 parse_primary_expr *)
Definition parse_primary (st : pst) : pres :=
  do t <- peek st;
  match t with
  | TIdent n =>
    if is_typedef_name (tdnames st) n then perr st
    else pok (new_identifier_ast AST_IDENT_EXPR n) (advance st)
  | TInt i => pok (new_iliteral_ast AST_INT_EXPR i) (advance st)
  | TChar i => pok (new_iliteral_ast AST_CHAR_EXPR i) (advance st)
  | TStr s => pok (new_sliteral_ast AST_STRING_EXPR s) (advance st)
  | TTok LParen =>
    ptry a, st <- parse_expr (advance st);
    consume RParen st (fun st => pok a st)
  | _ => perr st
  end.

(* --------------------------------------------------------------- declaration.c *)

(** parser/declaration.c:13-51 parse_decl *)
Definition parse_decl (st : pst) : pres :=
  let flag := tdflag st in
  do r <- rec (NDeclSpecs [] false) st;
  match r with
  | (None, st) => perr (with_flag st flag)
  | (Some specs, st) =>
    do t <- peek st;
    if ctype_eqb (ttype t) Semicolon then pok (new_ast AST_DECL [specs]) (advance (with_flag st flag)) else
    do r <- rec (NInitDeclorList []) st;
    match r with
    | (None, st) => perr (with_flag st flag)
    | (Some ds, st) =>
      consume Semicolon (with_flag st flag) (fun st => pok (new_ast AST_DECL [specs; ds]) st)
    end
  end.

(** parser/declaration.c:53-80 parse_type_name *)
Definition parse_type_name (st : pst) : pres :=
  let flag := tdflag st in
  do r <- rec (NSpecQual []) st;
  match r with
  | (None, st) => perr (with_flag st flag)
  | (Some specs, st) =>
    let index := toks st in
    do r <- rec (NDeclor true) st;
    match r with
    | (None, st) => pok (new_ast AST_TYPE_NAME [specs]) (with_toks (with_flag st flag) index)
    | (Some d, st) => pok (new_ast AST_TYPE_NAME [specs; d]) (with_flag st flag)
    end
  end.

(** parser/declaration.c:82-120 parse_decl_specifiers; one turn of the loop. The storage class
    specifier is read inline (160-176: its `default` case cannot be reached). *)
Definition parse_decl_specs (acc : list ast) (flag : bool) (st : pst) : pres :=
  do t <- peek st;
  if is_storage_class t then
    rec (NDeclSpecs (acc ++ [new_ast AST_STG_TYPEDEF []]) true) (advance st)
  else if is_type_specifier (tdnames st) t then
    ptry a, st <- rec NTypeSpec st; rec (NDeclSpecs (acc ++ [a]) flag) st
  else match acc with
       | [] => perr st
       | _ => pok (new_ast AST_DECL_SPECS acc) (with_flag st flag)
       end.

(** parser/declaration.c:122-158 parse_specifier_qualifier_list; one turn of the loop *)
Definition parse_spec_qual (acc : list ast) (st : pst) : pres :=
  do t <- peek st;
  if is_type_specifier (tdnames st) t then
    ptry a, st <- rec NTypeSpec st; rec (NSpecQual (acc ++ [a])) st
  else match acc with
       | [] => perr st
       | _ => pok (new_ast AST_SPEC_QUAL_LIST acc) (with_flag st false)
       end.

(** parser/declaration.c:178-227 parse_type_specifier *)
Definition parse_type_spec (st : pst) : pres :=
  do t <- peek st;
  match t with
  | TTok KwVoid => pok (new_ast AST_TYPE_VOID []) (advance st)
  | TTok KwChar => pok (new_ast AST_TYPE_CHAR []) (advance st)
  | TTok KwInt => pok (new_ast AST_TYPE_INT []) (advance st)
  | TTok KwLong => pok (new_ast AST_TYPE_LONG []) (advance st)
  | TTok KwUnsigned => pok (new_ast AST_TYPE_UNSIGNED []) (advance st)
  | TTok KwStruct => rec NStruct st
  | TTok KwEnum => rec NEnum st
  | TIdent n =>
    if is_typedef_name (tdnames st) n then pok (new_identifier_ast AST_TYPEDEF_NAME n) (advance st) else Fatal
  | _ => Fatal
  end.

(** The optional tag and optional body shared by parser/declaration.c:229-273 parse_struct_specifier
    and 358-402 parse_enum_specifier. *)
Definition parse_tagged (ty tagty : asttype) (body : nt) (st : pst) : pres :=
  do t <- peek st;
  let '(tag, st) := match t with
                    | TIdent n => ([new_identifier_ast tagty n], advance st)
                    | _ => ([], st)
                    end in
  do t <- peek st;
  if ctype_eqb (ttype t) LBrace then
    ptry b, st <- rec body (advance st);
    consume RBrace st (fun st => pok (new_ast ty (tag ++ [b])) st)
  else match tag with
       | [] => perr st
       | _ => pok (new_ast ty tag) st
       end.
Definition parse_struct (st : pst) : pres :=
  consume KwStruct st (parse_tagged AST_TYPE_STRUCT AST_STRUCT_NAME (NStructDeclList [])).
Definition parse_enum (st : pst) : pres :=
  consume KwEnum st (parse_tagged AST_TYPE_ENUM AST_ENUM_NAME (NEnumorList [])).

(** parser/declaration.c:275-298 parse_struct_decl_list; one turn of the loop *)
Definition parse_struct_decl_list (acc : list ast) (st : pst) : pres :=
  ptry a, st <- rec NStructDecl st;
  do t <- peek st;
  if ctype_eqb (ttype t) RBrace then pok (new_ast AST_STRUCT_DECL_LIST (acc ++ [a])) st
  else rec (NStructDeclList (acc ++ [a])) st.

(** parser/declaration.c:300-331 parse_struct_decl *)
Definition parse_struct_decl (st : pst) : pres :=
  let flag := tdflag st in
  do r <- rec (NSpecQual []) st;
  match r with
  | (None, st) => perr (with_flag st flag)
  | (Some specs, st) =>
    do r <- rec (NStructDeclorList []) st;
    match r with
    | (None, st) => perr (with_flag st flag)
    | (Some ds, st) =>
      consume Semicolon (with_flag st flag) (fun st => pok (new_ast AST_STRUCT_DECL [specs; ds]) st)
    end
  end.

(** parser/declaration.c:333-356 parse_struct_declarator_list; one turn of the loop *)
Definition parse_struct_declor_list (acc : list ast) (st : pst) : pres :=
  ptry a, st <- rec (NDeclor false) st;
  do t <- peek st;
  if ctype_eqb (ttype t) Comma then rec (NStructDeclorList (acc ++ [a])) (advance st)
  else pok (new_ast AST_STRUCT_DECLOR_LIST (acc ++ [a])) st.

(** parser/declaration.c:404-437 parse_enumerator_list; one turn of the loop *)
Definition parse_enumor_list (acc : list ast) (st : pst) : pres :=
  ptry a, st <- rec NEnumor st;
  do t <- peek st;
  if ctype_eqb (ttype t) RBrace then pok (new_ast AST_ENUMOR_LIST (acc ++ [a])) st else
  consume Comma st (fun st =>
  do t <- peek st;
  if ctype_eqb (ttype t) RBrace then pok (new_ast AST_ENUMOR_LIST (acc ++ [a])) st
  else rec (NEnumorList (acc ++ [a])) st).

(** parser/declaration.c:439-468 parse_enumerator *)
Definition parse_enumor (st : pst) : pres :=
  do t <- peek st;
  match t with
  | TIdent n =>
    let st := advance st in
    let c := new_identifier_ast AST_ENUM_CONST n in
    do t <- peek st;
    if ctype_eqb (ttype t) Equal then
      ptry e, st <- parse_constant_expr (advance st); pok (new_ast AST_ENUMOR [c; e]) st
    else pok (new_ast AST_ENUMOR [c]) st
  | _ => perr st
  end.

(** parser/declaration.c:470-495 parse_init_declarator_list; one turn of the loop *)
Definition parse_init_declor_list (acc : list ast) (st : pst) : pres :=
  ptry a, st <- rec NInitDeclor st;
  do t <- peek st;
  if ctype_eqb (ttype t) Comma then rec (NInitDeclorList (acc ++ [a])) (advance st)
  else pok (new_ast AST_INIT_DECLOR_LIST (acc ++ [a])) st.

(** parser/declaration.c:497-523 parse_init_declarator *)
Definition parse_init_declor (st : pst) : pres :=
  ptry d, st <- rec (NDeclor false) st;
  do t <- peek st;
  if ctype_eqb (ttype t) Equal then
    ptry i, st <- rec NInit (advance st); pok (new_ast AST_INIT_DECLOR [d; i]) st
  else pok (new_ast AST_INIT_DECLOR [d]) st.

Definition terminal_type (abs : bool) : asttype := if abs then AST_ABS_DECLOR else AST_IDENT_DECLOR.

(** parser/declaration.c:590-610 parse_pointer: the tree for [n+1] stars, innermost last *)
Fixpoint pointer_loop (ts : list token) (a : ast) : res (ast * list token) :=
  match ts with
  | [] => UB
  | t :: rest =>
    if ctype_eqb (ttype t) Asterisk then pointer_loop rest (new_ast AST_PTR_DECLOR [a]) else Ok (a, ts)
  end.
Definition parse_pointer (st : pst) : res (ast * pst) :=
  do r <- pointer_loop (tl (toks st)) (new_ast AST_PTR_DECLOR []);
  let '(a, ts) := r in Ok (a, with_toks st ts).

(** parser/declaration.c:565-568 and the push that follows: add [x] below the last pointer *)
Fixpoint pointer_attach (p : ast) (x : ast) : ast :=
  match p with
  | Ast t pl [] => Ast t pl [x]
  | Ast t pl (c :: rest) => Ast t pl (pointer_attach c x :: rest)
  end.

(** parser/declaration.c:575-586 (and 678-686, 753, 757): follow first children down to the node
    whose first child is the terminal, and replace that child using [f]. *)
Fixpoint replace_terminal (ty : asttype) (f : ast -> ast) (d : ast) : res ast :=
  match d with
  | Ast t pl [] => UB
  | Ast t pl (c :: rest) =>
    if asttype_eqb (ast_type c) ty then Ok (Ast t pl (f c :: rest))
    else do c' <- replace_terminal ty f c; Ok (Ast t pl (c' :: rest))
  end.
Fixpoint find_terminal (ty : asttype) (d : ast) : res ast :=
  match d with
  | Ast t pl [] => UB
  | Ast t pl (c :: _) => if asttype_eqb (ast_type c) ty then Ok c else find_terminal ty c
  end.

(** parser/declaration.c:533-588 parse_declarator_common *)
Definition parse_declor (abs : bool) (st : pst) : pres :=
  do t <- peek st;
  if ctype_eqb (ttype t) Asterisk then
    do r <- parse_pointer st;
    let '(p, st) := r in
    ptry d, st <- rec (NDirect abs) st;
    if asttype_eqb (ast_type d) (terminal_type abs) then pok (pointer_attach p d) st
    else do d' <- replace_terminal (terminal_type abs) (pointer_attach p) d; pok d' st
  else rec (NDirect abs) st.

(** Inserting [x] as first child of the last link of the chain [links] (parser/declaration.c:720-727,
    739-746, 754, 760): each link is the first child of the one before it. *)
Definition insert_child (link x : ast) : ast := Ast (ast_type link) (ast_payload link) (x :: ast_children link).
Definition chain (links : list ast) (terminal : ast) : ast := fold_right insert_child terminal links.

(** parser/declaration.c:710-766: the `[...]` and `(...)` suffixes, the loop of
    parse_direct_declarator_common. The links found are returned as the children of a node. *)
Definition parse_suffixes (acc : list ast) (st : pst) : pres :=
  do t <- peek st;
  match ttype t with
  | LBracket =>
    ptry e, st <- parse_constant_expr (advance st);
    consume RBracket st (fun st => rec (NSuffixes (acc ++ [new_ast AST_ARRAY_DECLOR [e]])) st)
  | LParen =>
    ptry ps, st <- rec (NParamList []) (advance st);
    consume RParen st (fun st => rec (NSuffixes (acc ++ [new_ast AST_FUNC_DECLOR [ps]])) st)
  | _ => pok (new_ast AST_INIT_LIST acc) st
  end.

(** parser/declaration.c:710-776: the suffix loop followed by the assembly of the tree.
    [enclosed] is enclosed_head_ast (NULL or the parenthesised declarator). *)
Definition direct_end (abs : bool) (enclosed : option ast) (terminal : ast) (st : pst) : pres :=
  ptry links, st <- rec (NSuffixes []) st;
  let inner := chain (ast_children links) terminal in
  match enclosed with
  | Some e => do a <- replace_terminal (terminal_type abs) (fun _ => inner) e; pok a st
  | None => pok inner st
  end.

(** parser/declaration.c:620-776 parse_direct_declarator_common *)
Definition parse_direct (abs : bool) (st : pst) : pres :=
  let index := toks st in
  do t <- peek st;
  match t with
  | TTok LParen =>
    ptry e, st <- rec (NDeclor abs) (advance st);
    if abs then
      if asttype_eqb (ast_type e) AST_ABS_DECLOR then direct_end abs None e (with_toks st index)
      else consume RParen st (fun st =>
           do x <- find_terminal AST_ABS_DECLOR e; direct_end abs (Some e) x st)
    else
      consume RParen st (fun st =>
      if asttype_eqb (ast_type e) AST_IDENT_DECLOR then direct_end abs None e st
      else do x <- find_terminal AST_IDENT_DECLOR e; direct_end abs (Some e) x st)
  | TIdent n =>
    if abs then perr st else
    let st := advance st in
    let st := if tdflag st then with_names st (n :: tdnames st) else st in
    direct_end abs None (new_identifier_ast AST_IDENT_DECLOR n) st
  | _ => if abs then direct_end abs None (new_ast AST_ABS_DECLOR []) st else perr st
  end.

(** parser/declaration.c:778-803 parse_parameter_list; one turn of the loop *)
Definition parse_param_list (acc : list ast) (st : pst) : pres :=
  ptry a, st <- rec NParamDecl st;
  do t <- peek st;
  if ctype_eqb (ttype t) Comma then rec (NParamList (acc ++ [a])) (advance st)
  else pok (new_ast AST_PARAM_LIST (acc ++ [a])) st.

(** parser/declaration.c:805-841 parse_parameter_decl *)
Definition parse_param_decl (st : pst) : pres :=
  let flag := tdflag st in
  do r <- rec (NDeclSpecs [] false) st;
  match r with
  | (None, st) => perr (with_flag st flag)
  | (Some specs, st) =>
    let index := toks st in
    do r <- rec (NDeclor false) st;
    match r with
    | (Some d, st) => pok (new_ast AST_PARAM_DECL [specs; d]) (with_flag st flag)
    | (None, st) =>
      do r <- rec (NDeclor true) (with_toks st index);
      match r with
      | (None, st) => perr (with_flag st flag)
      | (Some d, st) => pok (new_ast AST_PARAM_DECL [specs; d]) (with_flag st flag)
      end
    end
  end.

(** parser/declaration.c:843-868 parse_initializer *)
Definition parse_init (st : pst) : pres :=
  do t <- peek st;
  if ctype_eqb (ttype t) LBrace then
    ptry a, st <- rec (NInitList []) (advance st);
    consume RBrace st (fun st => pok a st)
  else rec (NAssign []) st.

(** parser/declaration.c:870-902 parse_initializer_list; one turn of the loop *)
Definition parse_init_list (acc : list ast) (st : pst) : pres :=
  ptry a, st <- rec NInit st;
  do t <- peek st;
  if ctype_eqb (ttype t) RBrace then pok (new_ast AST_INIT_LIST (acc ++ [a])) st else
  consume Comma st (fun st =>
  do t <- peek st;
  if ctype_eqb (ttype t) RBrace then pok (new_ast AST_INIT_LIST (acc ++ [a])) st
  else rec (NInitList (acc ++ [a])) st).

(* ----------------------------------------------------------------- statement.c *)

(** parser/statement.c:8-34 parse_stmt *)
Definition parse_stmt (st : pst) : pres :=
  do t <- peek st;
  match ttype t with
  | KwCase => rec NCase st
  | KwDefault => rec NDefault st
  | LBrace => rec NCompound st
  | KwContinue => rec NContinue st
  | KwBreak => rec NBreak st
  | KwReturn => rec NReturn st
  | KwIf => rec NIf st
  | KwSwitch => rec NSwitch st
  | KwWhile => rec NWhile st
  | KwFor => rec NFor st
  | _ => rec NExprStmt st
  end.

(** parser/statement.c:36-68 parse_case_stmt *)
Definition parse_case (st : pst) : pres :=
  consume KwCase st (fun st =>
  ptry e, st <- parse_expr st;
  consume Colon st (fun st =>
  ptry s, st <- rec NStmt st;
  pok (new_ast AST_CASE_STMT [e; s]) st)).

(** parser/statement.c:70-95 parse_default_stmt *)
Definition parse_default (st : pst) : pres :=
  consume KwDefault st (fun st =>
  consume Colon st (fun st =>
  ptry s, st <- rec NStmt st;
  pok (new_ast AST_DEFAULT_STMT [s]) st)).

(** parser/statement.c:97-137 parse_compound_stmt: the typedef names are put back at the end *)
Definition parse_compound (st : pst) : pres :=
  consume LBrace st (fun st =>
  let names := tdnames st in
  do r <- rec (NItems []) st;
  let '(a, st) := r in Ok (a, with_names st names)).
(** parser/statement.c:110-127, one turn of the loop *)
Definition parse_items (acc : list ast) (st : pst) : pres :=
  do t <- peek st;
  if ctype_eqb (ttype t) RBrace then pok (new_ast AST_CMPD_STMT acc) (advance st) else
  ptry a, st <- (if item_may_decl st t then rec NDecl st else rec NStmt st);
  rec (NItems (acc ++ [a])) st.

(** parser/statement.c:139-155 parse_continue_stmt, 157-173 parse_break_stmt *)
Definition parse_continue (st : pst) : pres :=
  consume KwContinue st (fun st => consume Semicolon st (fun st => pok (new_ast AST_CONTINUE_STMT []) st)).
Definition parse_break (st : pst) : pres :=
  consume KwBreak st (fun st => consume Semicolon st (fun st => pok (new_ast AST_BREAK_STMT []) st)).

(** parser/statement.c:175-203 parse_return_stmt *)
Definition parse_return (st : pst) : pres :=
  consume KwReturn st (fun st =>
  do t <- peek st;
  if ctype_eqb (ttype t) Semicolon then pok (new_ast AST_RET_STMT []) (advance st) else
  ptry e, st <- parse_expr st;
  consume Semicolon st (fun st => pok (new_ast AST_RET_STMT [e]) st)).

(** parser/statement.c:205-228 parse_expression_stmt *)
Definition parse_expr_stmt (st : pst) : pres :=
  do t <- peek st;
  if ctype_eqb (ttype t) Semicolon then pok (new_ast AST_NULL_STMT []) (advance st) else
  ptry e, st <- parse_expr st;
  consume Semicolon st (fun st => pok (new_ast AST_EXPR_STMT [e]) st).

(** parser/statement.c:230-281 parse_if_else_stmt *)
Definition parse_if (st : pst) : pres :=
  consume KwIf st (fun st =>
  consume LParen st (fun st =>
  ptry e, st <- parse_expr st;
  consume RParen st (fun st =>
  ptry s1, st <- rec NStmt st;
  do t <- peek st;
  if ctype_eqb (ttype t) KwElse then
    ptry s2, st <- rec NStmt (advance st);
    pok (new_ast AST_IF_STMT [e; s1; s2]) st
  else pok (new_ast AST_IF_STMT [e; s1]) st))).

(** parser/statement.c:283-321 parse_switch_stmt *)
Definition parse_switch (st : pst) : pres :=
  consume KwSwitch st (fun st =>
  consume LParen st (fun st =>
  ptry e, st <- parse_expr st;
  consume RParen st (fun st =>
  ptry s, st <- rec NStmt st;
  pok (new_ast AST_SWITCH_STMT [e; s]) st))).

(** parser/statement.c:323-361 parse_while_stmt *)
Definition parse_while (st : pst) : pres :=
  consume KwWhile st (fun st =>
  consume LParen st (fun st =>
  ptry e, st <- parse_expr st;
  consume RParen st (fun st =>
  ptry s, st <- rec NStmt st;
  pok (new_ast AST_WHILE_STMT [e; s]) st))).

(** parser/statement.c:417-424, the body of a for statement *)
Definition for_body (init cond step : ast) (st : pst) : pres :=
  ptry s, st <- rec NStmt st; pok (new_ast AST_FOR_STMT [init; cond; step; s]) st.
(** parser/statement.c:363-425 parse_for_stmt *)
Definition parse_for (st : pst) : pres :=
  consume KwFor st (fun st =>
  consume LParen st (fun st =>
  do t <- peek st;
  ptry i, st <- (if item_may_decl st t then rec NDecl st else rec NExprStmt st);
  ptry c, st <- rec NExprStmt st;
  do t <- peek st;
  if ctype_eqb (ttype t) RParen then for_body i c (new_ast AST_NULL_STMT []) (advance st) else
  ptry e, st <- parse_expr st;
  consume RParen st (fun st => for_body i c (new_ast AST_EXPR_STMT [e]) st))).

(* ------------------------------------------------------------------ external.c *)

(** parser/util.c:6-42 external_may_function_definition. The answer is [Ok None] for a parse error. *)
Definition may_function_definition (st : pst) : res (option bool) :=
  do r <- rec (NDeclSpecs [] false) st;
  match r with
  | (None, _) => Ok None
  | (Some _, st') =>
    do r <- rec (NDeclor false) st';
    match r with
    | (None, _) => Ok (Some false)
    | (Some _, st'') => do t <- peek st''; Ok (Some (ctype_eqb (ttype t) LBrace))
    end
  end.

(** parser/external.c:9-43 parse_translation_unit; one turn of the loop *)
Definition parse_trans_unit (acc : list ast) (st : pst) : pres :=
  do m <- may_function_definition st;
  match m with
  | None => perr st
  | Some b =>
    ptry a, st <- (if b then rec NFuncDef st else rec NDecl st);
    do t <- peek st;
    if ctype_eqb (ttype t) CtEOF then pok (new_ast AST_TRAS_UNIT (acc ++ [a])) st
    else rec (NTransUnit (acc ++ [a])) st
  end.

(** parser/external.c:45-76 parse_function_definition *)
Definition parse_func_def (st : pst) : pres :=
  let flag := tdflag st in
  do r <- rec (NDeclSpecs [] false) st;
  match r with
  | (None, st) => perr (with_flag st flag)
  | (Some specs, st) =>
    do r <- rec (NDeclor false) st;
    match r with
    | (None, st) => perr (with_flag st flag)
    | (Some d, st) =>
      ptry b, st <- rec NCompound (with_flag st flag);
      pok (new_ast AST_FUNC_DEF [specs; d; b]) st
    end
  end.

Definition body (n : nt) : pst -> pres :=
  match n with
  | NTransUnit acc => parse_trans_unit acc
  | NFuncDef => parse_func_def
  | NDecl => parse_decl
  | NTypeName => parse_type_name
  | NDeclSpecs acc flag => parse_decl_specs acc flag
  | NSpecQual acc => parse_spec_qual acc
  | NTypeSpec => parse_type_spec
  | NStruct => parse_struct
  | NStructDeclList acc => parse_struct_decl_list acc
  | NStructDecl => parse_struct_decl
  | NStructDeclorList acc => parse_struct_declor_list acc
  | NEnum => parse_enum
  | NEnumorList acc => parse_enumor_list acc
  | NEnumor => parse_enumor
  | NInitDeclorList acc => parse_init_declor_list acc
  | NInitDeclor => parse_init_declor
  | NDeclor abs => parse_declor abs
  | NDirect abs => parse_direct abs
  | NSuffixes acc => parse_suffixes acc
  | NParamList acc => parse_param_list acc
  | NParamDecl => parse_param_decl
  | NInit => parse_init
  | NInitList acc => parse_init_list acc
  | NStmt => parse_stmt
  | NCase => parse_case
  | NDefault => parse_default
  | NCompound => parse_compound
  | NItems acc => parse_items acc
  | NContinue => parse_continue
  | NBreak => parse_break
  | NReturn => parse_return
  | NExprStmt => parse_expr_stmt
  | NIf => parse_if
  | NSwitch => parse_switch
  | NWhile => parse_while
  | NFor => parse_for
  | NAssign stack => parse_assign stack
  | NCond => parse_cond
  | NLevel l => parse_level l
  | NTail l a => parse_tail l a
  | NCast stack => parse_cast stack
  | NUnary => parse_unary
  | NPreInc => parse_preinc
  | NUnaryOp => parse_unary_op
  | NSizeof => parse_sizeof
  | NPostfix => parse_postfix
  | NPostfixTail a => parse_postfix_tail a
  | NArgs => parse_args
  | NArgsTail acc => parse_args_tail acc
  | NPrimary => parse_primary
  end.
End Bodies.

(** The recursive functions, with fuel for the depth of nested calls. *)
Fixpoint parse (fuel : nat) (n : nt) (st : pst) : pres :=
  match fuel with
  | O => Fuel
  | S f => body (parse f) n st
  end.

(** Fuel that always suffices (proved in ParserProofs). *)
Definition parse_fuel (ts : list token) : nat := (32 * length ts + 64)%nat.

(** parser/parser.c:7-14 new_parser, 16-18 parser_create_ast *)
Definition parse_tokens (ts : list token) : res ast :=
  do r <- parse (parse_fuel ts) (NTransUnit []) (mkpst ts [] false);
  match r with
  | (Some a, _) => Ok a
  | (None, _) => Err
  end.
