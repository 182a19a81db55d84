(** C12 to C15: the parser, the grammar (Grammar), written expressions and types (WriteSpec), typedef names (TypedefSpec) *)
From Verif Require Import Base LiteralModel LexerModel AstModel DtypeModel SrtModel ParserModel ResolverModel Grammar GrammarProofs4 WriteSpec WriteProofs DeclareProofs TypedefSpec TypedefProofs GrammarWitness.
Local Open Scope Z_scope.

(** C12: any expression tree [e], written with the parentheses that the precedence of its operators makes necessary and no others ([write], WriteSpec) and returned
    from a function after any typedefs [l], is read back as the same tree. The identifiers of [e] that stand for objects are not typedef names, and those that stand for types are.
    Missing: type names in casts and `sizeof` with a parameter written `int (T)` for a typedef name T ([clear_expr]); the next theorem shows that they are misread. *)
Theorem C12_expression_read_back_partial : forall l n e,
  NoDup l -> ~ In n l -> (forall m, In m (names e) -> ~ In m l) -> (forall m, In m (typedefs e) -> In m l) -> clear_expr e ->
  parse_tokens (concat (map typedef_tokens l) ++ main_tokens n (write 1 e) ++ [TTok CtEOF]) = Ok (n0 AST_TRAS_UNIT (map typedef_tree l ++ [main_tree n (tree e)])).
Proof. exact parse_write. Qed.
Print Assumptions C12_expression_read_back_partial.
Definition C12_e : expr := EAssign AsAdd (EUnary UDeref (EPostInc (EName (bytes "p"))))
  (ECond (EBinary OLand (EName (bytes "a")) (EBinary OLor (EName (bytes "b")) (EName (bytes "c"))))
    (EBinary OSub (EInt (new_signed IInt 1)) (EBinary OSub (EName (bytes "a")) (EName (bytes "b"))))
    (ECast (TPointer (TArray 3 (TBasic (BTypedef (bytes "T"))))) (ECall (EDot (EName (bytes "s")) (bytes "T")) [EAssign AsSet (EName (bytes "a")) (EName (bytes "b")); ESizeofType (TBasic BInt)]))).
Example C12_case : NoDup [bytes "T"] /\ ~ In (bytes "main") [bytes "T"] /\ (forall m, In m (names C12_e) -> ~ In m [bytes "T"]) /\ (forall m, In m (typedefs C12_e) -> In m [bytes "T"]) /\ clear_expr C12_e
  /\ lex_source (bytes "*p++ += a && (b || c) ? 1 - (a - b) : (T (*)[3])s.T(a = b, sizeof(int))") = Ok (write 1 C12_e ++ [TTok CtEOF]).
Proof.
  split; [repeat constructor; intros []|]. split; [vm_compute; intuition congruence|]. split; [intros m I; vm_compute in I; intros J; vm_compute in J; intuition congruence|].
  split; [intros m I; vm_compute in I |- *; tauto|]. split; [vm_compute; tauto|]. vm_compute. reflexivity.
Qed.

(** C12 does not hold for every type name: in `sizeof(int ( * )(int (T)))`, with T a typedef name, the parser takes T for the name of a parameter. *)
Theorem C12_function_parameter_refuted : exists l n e, NoDup l /\ ~ In n l /\ (forall m, In m (names e) -> ~ In m l) /\ (forall m, In m (typedefs e) -> In m l) /\
  parse_tokens (concat (map typedef_tokens l) ++ main_tokens n (write 1 e) ++ [TTok CtEOF]) <> Ok (n0 AST_TRAS_UNIT (map typedef_tree l ++ [main_tree n (tree e)])).
Proof. exact function_parameter_misread. Qed.
Print Assumptions C12_function_parameter_refuted.

(** C13: a declaration of [n] written for the type [t] (pointers, arrays, functions and superfluous parentheses in any nesting, parameters with or without names; [declare], WriteSpec)
    is parsed and resolved to a declaration of [n] with exactly that type. [proper]: the type exists in C.
    Missing: base types that are structures, enumerations or typedef names. *)
Theorem C13_declaration_read_back_partial : forall t n,
  proper t -> meaning t <> DTYPE_VOID -> exists a,
  parse_tokens (declare t n ++ [TTok Semicolon; TTok CtEOF]) = Ok a /\
  resolve a = Ok (new_srt SRT_TRAS_UNIT [new_srt SRT_DECL_LIST [new_srt SRT_INIT_DECL [new_identifier_srt SRT_IDENT_DECL (meaning t) n]]]).
Proof. exact declare_means. Qed.
Print Assumptions C13_declaration_read_back_partial.
Definition C13_t : type :=
  TParens (TArray 3 (TPointer (TFunction [(Some (bytes "a"), TArray 4 (TBasic BChar)); (None, TFunction [] (TBasic BVoid)); (None, TPointer (TBasic BVoid))] (TPointer (TArray 2 (TParens (TBasic BUnsignedLong))))))).
Example C13_case : proper C13_t /\ meaning C13_t <> DTYPE_VOID
  /\ lex_source (bytes "unsigned long ((*(*(x)[3])(char a[4], void (void), void *))[2]);") = Ok (declare C13_t (bytes "x") ++ [TTok Semicolon; TTok CtEOF])
  /\ meaning C13_t = DTYPE_ARRAY (DTYPE_POINTER (DTYPE_FUNCTION [(Some (bytes "a"), DTYPE_POINTER DTYPE_CHAR); (None, DTYPE_POINTER (DTYPE_FUNCTION [] DTYPE_VOID)); (None, DTYPE_POINTER DTYPE_VOID)]
       (DTYPE_POINTER (DTYPE_ARRAY DTYPE_UNSIGNED_LONG 2)))) 3.
Proof.
  split; [|split; [vm_compute; discriminate|split; vm_compute; reflexivity]].
  cbn. repeat split; try lia; try discriminate; repeat constructor; intros [].
Qed.

(** C13 does not hold with typedef names: after `typedef int T;` the declaration `int main(int (int (T)))` ... of a function whose parameter is a function that takes a T
    declares another type. *)
Theorem C13_function_parameter_refuted : exists t a n,
  parse_tokens (typedef_tokens T_name ++ declare t n ++ [TTok Semicolon; TTok CtEOF]) = Ok a /\
  exists ps, t = TFunction [(None, TFunction [(None, TBasic (BTypedef T_name))] (TBasic BInt))] (TBasic BInt) /\
  resolve a = Ok (new_srt SRT_TRAS_UNIT [new_srt SRT_DECL_LIST [new_srt SRT_INIT_DECL [new_identifier_srt SRT_IDENT_DECL (DTYPE_TYPEDEF DTYPE_INT) T_name]];
                                         new_srt SRT_DECL_LIST [new_srt SRT_INIT_DECL [new_identifier_srt SRT_IDENT_DECL (DTYPE_FUNCTION ps DTYPE_INT) n]]]) /\
  ps <> [(None, DTYPE_POINTER (DTYPE_FUNCTION [(None, DTYPE_INT)] DTYPE_INT))].
Proof. exact function_parameter_declared. Qed.
Print Assumptions C13_function_parameter_refuted.

(** C14, one direction: a program that the grammar derives with the trees [l] is parsed to these trees. The rules for statements (with the dangling `else`) are in Grammar. *)
Theorem C14_phrases_accepted : forall ts l S',
  G Unit [] ts l S' -> parse_tokens (ts ++ [TTok CtEOF]) = Ok (Ast AST_TRAS_UNIT PNone l).
Proof. exact grammar_complete. Qed.
Print Assumptions C14_phrases_accepted.
Definition C14_src : list Z := bytes "int f(int x) { if (x) if (x - 1) return 1; else { while (x) --x; } for (int i = 0; i < 3; i++) switch (x) { case 1: break; default: continue; } return 0; }".
Lemma has_eof ts : In (TTok CtEOF) ts -> existsb (fun t => match t with TTok CtEOF => true | _ => false end) ts = true.
Proof. intros I. apply existsb_exists. exists (TTok CtEOF). auto. Qed.
Example C14_case : ~ In (TTok CtEOF) (tokens C14_src) /\ typedefs_outside 0 (tokens C14_src) /\ exists a, parse_tokens (tokens C14_src ++ [TTok CtEOF]) = Ok a.
Proof.
  split; [intros I; apply has_eof in I; vm_compute in I; discriminate I|]. split; [vm_compute; tauto|]. eexists. vm_compute. reflexivity.
Qed.
Example C14_case_phrase : exists l S, G Unit [] (tokens C14_src) l S.
Proof.
  destruct C14_case as (N & O & a & E). apply (parse_iff _ _ N O) in E. destruct E as (l & S & D & _). exists l, S. exact D.
Qed.

(** C14, both directions: the parser accepts exactly the phrases of the grammar, with the trees of the grammar.
    Missing: `typedef` between parentheses (in a parameter list or in a `for`), which the parser accepts. *)
Theorem C14_parser_is_grammar_partial : forall ts a,
  ~ In (TTok CtEOF) ts -> typedefs_outside 0 ts ->
  parse_tokens (ts ++ [TTok CtEOF]) = Ok a <-> exists l S, G Unit [] ts l S /\ a = Ast AST_TRAS_UNIT PNone l.
Proof. exact parse_iff. Qed.
Print Assumptions C14_parser_is_grammar_partial.

(** C14: a program has one structure only. *)
Theorem C14_unambiguous : forall ts l S l' S',
  G Unit [] ts l S -> G Unit [] ts l' S' -> l = l'.
Proof. exact grammar_unambiguous. Qed.
Print Assumptions C14_unambiguous.
Example C14_unambiguous_case : exists l l' S S', G Unit [] (tokens C14_src) l S /\ G Unit [] (tokens C14_src) l' S'.
Proof. destruct C14_case_phrase as (l & S & D). exists l, l, S, S. auto. Qed.

(** C14 does not hold for every token list: `void f(typedef int T);` is accepted, and the grammar does not derive it. *)
Theorem C14_typedef_parameter_refuted : exists ts a, ~ In (TTok CtEOF) ts /\ parse_tokens (ts ++ [TTok CtEOF]) = Ok a /\ forall l S, ~ G Unit [] ts l S.
Proof. exact typedef_parameter_accepted. Qed.
Print Assumptions C14_typedef_parameter_refuted.

(** C15: in the tree of every accepted program, an identifier is used as a type where a typedef of it is visible (declared before, in a block that has not ended) and as an object, function
    or constant where none is ([uses], TypedefSpec). This is the property for programs in which no other declaration uses the name of a visible typedef.
    Missing: declarations that hide a typedef, which the parser ignores (next theorems); `typedef` between parentheses. A typedef name is visible in its own declarator. *)
Theorem C15_typedef_names_partial : forall ts a,
  typedefs_outside 0 ts -> parse_tokens ts = Ok a -> uses [] a.
Proof. exact parse_uses. Qed.
Print Assumptions C15_typedef_names_partial.
Definition C15_src : list Z := bytes "typedef int T; struct s { int T1; }; int f(T x) { { typedef T *U; U y; y = (U)&x; } int U = (T)x + sizeof(T); return U + x; }".
Example C15_case : typedefs_outside 0 (tokens C15_src) /\ exists a, parse_tokens (tokens C15_src ++ [TTok CtEOF]) = Ok a /\ uses [] a.
Proof. split; [vm_compute; tauto|]. eexists. split; [vm_compute; reflexivity|]. vm_compute. intuition congruence. Qed.

(** C15 does not hold: a local variable with the name of a typedef is rejected ([shadowed] is a valid C program; in its return statement the innermost declaration of T is the variable). *)
Theorem C15_hidden_typedef_refuted : exists ts, lex_source shadowed = Ok ts /\ parse_tokens ts = Err.
Proof. exact shadowed_rejected. Qed.
Print Assumptions C15_hidden_typedef_refuted.

(** C15 does not hold: below `enum { T }` the identifier T is still used as a type: the tree of `(T) + 1` is a cast. *)
Theorem C15_hidden_by_constant_refuted : exists ts, lex_source shadowed_by_constant = Ok ts /\
  parse_tokens ts = Ok (n0 AST_TRAS_UNIT [typedef_tree T_name;
    n0 AST_FUNC_DEF [n0 AST_DECL_SPECS [n0 AST_TYPE_INT []];
      n0 AST_FUNC_DECLOR [Ast AST_IDENT_DECLOR (PName main_name) []; n0 AST_PARAM_LIST [n0 AST_PARAM_DECL [n0 AST_DECL_SPECS [n0 AST_TYPE_VOID []]; n0 AST_ABS_DECLOR []]]];
      n0 AST_CMPD_STMT [enum_T; n0 AST_RET_STMT [n0 AST_CAST_EXPR
        [n0 AST_TYPE_NAME [n0 AST_SPEC_QUAL_LIST [Ast AST_TYPEDEF_NAME (PName T_name) []]; n0 AST_ABS_DECLOR []];
         n0 AST_POS_EXPR [Ast AST_INT_EXPR (PInt (new_signed IInt 1)) []]]]]]]).
Proof. exact constant_misread. Qed.
Print Assumptions C15_hidden_by_constant_refuted.

(** C15 does not hold: a typedef in a `for` is used as a type after it. *)
Theorem C15_typedef_in_for_refuted : exists ts a, lex_source typedef_in_for = Ok ts /\ parse_tokens ts = Ok a /\ ~ uses [] a.
Proof. exact typedef_leaks. Qed.
Print Assumptions C15_typedef_in_for_refuted.
