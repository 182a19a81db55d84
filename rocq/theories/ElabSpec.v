(** The C typing rules (C11 6.5 - 6.9, for the supported constructs), as relations between a syntax tree and the
    typed tree that stands for it: every operand after the conversions C prescribes, every node with its type,
    every name looked up in the scopes it is used in.  The environment [env] holds what names and struct tags
    mean (SymtabModel.v; C21 says what its operations do) and the string literals so far; it is threaded through
    expressions as well because a type name inside an expression can declare tags and enumeration constants.

    Where the compiler's rule is known to differ from that of C the comment of the rule says so, and the
    difference is a theorem (ResolverWitness.v). *)
From Verif Require Import Base AstModel DtypeModel SymtabModel SrtModel TypeSpec.
Local Open Scope Z_scope.

Record env : Type := mkenv { e_syms : symtab; e_tags : tagtab; e_strings : list (list Z) }.
Definition with_syms (E : env) (t : symtab) : env := mkenv t (e_tags E) (e_strings E).
Definition with_tags (E : env) (t : tagtab) : env := mkenv (e_syms E) t (e_strings E).
Definition with_string (E : env) (s : list Z) : env := mkenv (e_syms E) (e_tags E) (e_strings E ++ [s]).
Definition has (s : srt) (d : dtype) : Prop := srt_dtype s = Some d.
Definition node (t : srttype) (d : dtype) (children : list srt) : srt := Srt t (Some d) SPNone children.

(** ** Conversions *)
(** arrays and functions as values (6.3.2.1) *)
Definition value_of (s v : srt) : Prop :=
  match srt_dtype s with
  | Some (DTYPE_ARRAY e _) => v = node SRT_ADDR_EXPR (DTYPE_POINTER e) [s]
  | Some (DTYPE_FUNCTION ps r) => v = node SRT_ADDR_EXPR (DTYPE_POINTER (DTYPE_FUNCTION ps r)) [s]
  | _ => v = s
  end.
(** conversion to a type as if by assignment: a cast unless the type is the same already *)
Definition assigned_to (d : dtype) (s s' : srt) : Prop :=
  exists d0, has s d0 /\ ((same_type d0 d /\ s' = s) \/ (~ same_type d0 d /\ s' = node SRT_CAST_EXPR d [s])).
(** conversion of an integer to the integer type [d]: a cast unless it has that type already *)
Definition to_integer (d : dtype) (s s' : srt) : Prop :=
  exists d0 r u, has s d0 /\ promotes d0 r u /\ ((d0 = d /\ s' = s) \/ (d0 <> d /\ s' = node SRT_CAST_EXPR d [s])).
(** integer promotion of [s] to type [d] (6.3.1.1) *)
Definition promoted (s s' : srt) (d : dtype) : Prop :=
  exists d0 r u, has s d0 /\ promotes d0 r u /\ d = integer_type r u /\ to_integer d s s'.
(** usual arithmetic conversions of the operands [l], [r] to their common type [d] (6.3.1.8): both are promoted, then
    converted to the common type *)
Definition balanced_to (l r l' r' : srt) (d : dtype) : Prop :=
  exists r1 u1 r2 u2 l1 l2, promoted l l1 (integer_type r1 u1) /\ promoted r l2 (integer_type r2 u2) /\ d = common_type r1 u1 r2 u2
    /\ to_integer d l1 l' /\ to_integer d l2 r'.

(** ** Kinds of types *)
Definition integer (d : dtype) : Prop := exists r u, promotes d r u.
Definition scalar (d : dtype) : Prop := integer d \/ exists t, d = DTYPE_POINTER t.
(** a complete object type: of known size *)
Definition object_type (d : dtype) : Prop :=
  match d with
  | DTYPE_VOID | DTYPE_FUNCTION _ _ | DTYPE_TYPEDEF _ => False
  | DTYPE_NSTRUCT _ n _ | DTYPE_USTRUCT _ n _ => 0 < n
  | _ => True
  end.
Definition incomplete (d : dtype) : Prop :=
  match d with DTYPE_VOID => True | DTYPE_NSTRUCT _ n _ | DTYPE_USTRUCT _ n _ => n <= 0 | _ => False end.
(** modifiable lvalues (6.3.2.1): a name, `*p` or `p->m`, not an array *)
Definition modifiable (s : srt) : Prop :=
  (exists d, has s d /\ object_type d /\ (forall e n, d <> DTYPE_ARRAY e n)) /\
  In (srt_type s) [SRT_IDENT_EXPR; SRT_INDIR_EXPR; SRT_TOMEMBER_EXPR].
(** what `&` takes *)
Definition addressable (s : srt) : Prop :=
  (exists ps r, has s (DTYPE_FUNCTION ps r)) \/ srt_type s = SRT_INDIR_EXPR
  \/ (srt_type s = SRT_IDENT_EXPR /\ exists d, has s d /\ object_type d).
Definition address (d : dtype) (s : srt) : srt := node SRT_ADDR_EXPR (DTYPE_POINTER d) [s].

(** ** Operators *)
(** operators on two integers, with both operands and the result of the common type.  For the shifts this is the
    rule of the compiler and not that of C (see C23_shift_refuted). *)
Definition integer_operators : list (asttype * srttype) := [
  (AST_MUL_EXPR, SRT_MUL_EXPR); (AST_DIV_EXPR, SRT_DIV_EXPR); (AST_MOD_EXPR, SRT_MOD_EXPR);
  (AST_ADD_EXPR, SRT_ADD_EXPR); (AST_SUB_EXPR, SRT_SUB_EXPR);
  (AST_LSHIFT_EXPR, SRT_LSHIFT_EXPR); (AST_RSHIFT_EXPR, SRT_RSHIFT_EXPR);
  (AST_AND_EXPR, SRT_AND_EXPR); (AST_XOR_EXPR, SRT_XOR_EXPR); (AST_OR_EXPR, SRT_OR_EXPR)].
Definition comparison_operators : list (asttype * srttype) := [
  (AST_EQUAL_EXPR, SRT_EQUAL_EXPR); (AST_NEQUAL_EXPR, SRT_NEQUAL_EXPR); (AST_LESS_EXPR, SRT_LESS_EXPR);
  (AST_GREATER_EXPR, SRT_GREATER_EXPR); (AST_LESSEQ_EXPR, SRT_LESSEQ_EXPR); (AST_GREATEREQ_EXPR, SRT_GREATEREQ_EXPR)].
Definition compound_operators : list (asttype * asttype) := [
  (AST_MUL_ASSIGN_EXPR, AST_MUL_EXPR); (AST_DIV_ASSIGN_EXPR, AST_DIV_EXPR); (AST_MOD_ASSIGN_EXPR, AST_MOD_EXPR);
  (AST_ADD_ASSIGN_EXPR, AST_ADD_EXPR); (AST_SUB_ASSIGN_EXPR, AST_SUB_EXPR);
  (AST_LSHIFT_ASSIGN_EXPR, AST_LSHIFT_EXPR); (AST_RSHIFT_ASSIGN_EXPR, AST_RSHIFT_EXPR);
  (AST_AND_ASSIGN_EXPR, AST_AND_EXPR); (AST_XOR_ASSIGN_EXPR, AST_XOR_EXPR); (AST_OR_ASSIGN_EXPR, AST_OR_EXPR)].
Definition incdec_operators : list (asttype * srttype) := [
  (AST_PREINC_EXPR, SRT_PREINC_EXPR); (AST_PREDEC_EXPR, SRT_PREDEC_EXPR);
  (AST_POSTINC_EXPR, SRT_POSTINC_EXPR); (AST_POSTDEC_EXPR, SRT_POSTDEC_EXPR)].
Definition unary_operators : list (asttype * srttype) := [
  (AST_POS_EXPR, SRT_POS_EXPR); (AST_NEG_EXPR, SRT_NEG_EXPR); (AST_NOT_EXPR, SRT_NOT_EXPR)].
Definition constant_type (i : iliteral) : dtype :=
  match itype i with
  | IInt => DTYPE_INT | IUInt => DTYPE_UNSIGNED_INT | ILong => DTYPE_LONG | IULong => DTYPE_UNSIGNED_LONG
  | ILongLong => DTYPE_LONGLONG | IULongLong => DTYPE_UNSIGNED_LONGLONG
  end.
(** the first member named [n] *)
Inductive member_of : list (name * dtype * Z) -> name -> dtype -> Prop :=
| member_here n d o r : member_of ((n, d, o) :: r) n d
| member_later m e o r n d : m <> n -> member_of r n d -> member_of ((m, e, o) :: r) n d.
(** the members of a struct type; those of a named struct are found through its tag *)
Inductive members_of (tags : tagtab) : dtype -> list (name * dtype * Z) -> Prop :=
| members_unnamed ms size align : members_of tags (DTYPE_USTRUCT ms size align) ms
| members_named n s a ms size align : tag_search tags n = Some (DTYPE_USTRUCT ms size align) -> members_of tags (DTYPE_NSTRUCT n s a) ms.

(** ** Declarations: auxiliary notions *)
(** struct type with members [ms], laid out as C16 says when all of them are complete *)
Definition struct_type (ms : list (name * dtype)) (members : list (name * dtype * Z)) (size align : Z) : Prop :=
  List.map fst members = ms /\ (ms <> [] -> Forall (fun m => complete (snd m)) ms -> laid_out members size align).
Definition undeclared (t : symtab) (n : name) : Prop := sym_can_define t n = Ok true.
Definition tag_undeclared (t : tagtab) (n : name) : Prop := tag_can_define t n = Ok true.
(** what a declarator is directly inside of *)
Inductive around := AroundNone | AroundPointer | AroundArray | AroundFunction.
(** which types the innermost type derivation applies to: no array of, nor function returning an incomplete type,
    void excepted.  (A type behind a typedef name is not looked into: C16_zero_alignment_refuted.) *)
Definition derivable (typedef : bool) (out : around) (base : dtype) : Prop :=
  match out with
  | AroundArray => ~ incomplete base
  | AroundFunction => ~ incomplete base \/ (typedef = false /\ base = DTYPE_VOID)
  | _ => True
  end.
(** parameter types: arrays and functions become pointers (6.7.6.3p7, p8) *)
Definition adjusted (d : dtype) : dtype :=
  match d with DTYPE_ARRAY e _ => DTYPE_POINTER e | DTYPE_FUNCTION _ _ => DTYPE_POINTER d | _ => d end.
Definition literal_value (s : srt) (v : Z) : Prop :=
  srt_type s = SRT_ILITERAL_EXPR /\ exists i, srt_payload s = SPInt i /\ iliteral_isunsigned i = false /\ v = sval i.
(** conversion of a constant to int keeps the low 32 bits *)
Definition as_int (v v' : Z) : Prop := - 2 ^ 31 <= v' < 2 ^ 31 /\ (2 ^ 32 | v - v').
Definition braced (a : ast) : Prop := ast_type a = AST_INIT_LIST.
Definition aggregate (d : dtype) : Prop := (exists e n, d = DTYPE_ARRAY e n) \/ structure d.
(** the elements or members an initialiser list goes through; those of a named struct are found through its tag *)
Inductive elements (tags : tagtab) : dtype -> list dtype -> Prop :=
| elements_array e n : elements tags (DTYPE_ARRAY e n) (repeat e (Z.to_nat n))
| elements_unnamed ms size align : elements tags (DTYPE_USTRUCT ms size align) (List.map member_type ms)
| elements_named n s a ms size align : tag_search tags n = Some (DTYPE_USTRUCT ms size align) ->
    elements tags (DTYPE_NSTRUCT n s a) (List.map member_type ms)
(** a tag hidden by an enumeration of the same name *)
| elements_hidden n s a ms : tag_search tags n = Some (DTYPE_UENUM ms) -> elements tags (DTYPE_NSTRUCT n s a) [].
(** the first [n] bytes of a string, zero after its end *)
Definition padded (s : sliteral) (n : Z) (s' : sliteral) : Prop :=
  Z.of_nat (length s') = Z.max 0 n /\ (forall i, (i < length s')%nat -> nth i s' 0 = nth i s 0).
Definition zero : srt := Srt SRT_ILITERAL_EXPR (Some DTYPE_INT) (SPInt (new_signed IInt 0)) [].
Definition init_node (cs : list srt) : srt := Srt SRT_INIT None SPNone cs.
Inductive zeroed (tags : tagtab) : dtype -> srt -> Prop :=
| zeroed_int : zeroed tags DTYPE_INT (init_node [zero])
| zeroed_char : zeroed tags DTYPE_CHAR (init_node [node SRT_CAST_EXPR DTYPE_CHAR [zero]])
| zeroed_pointer t : zeroed tags (DTYPE_POINTER t) (init_node [node SRT_CAST_EXPR (DTYPE_POINTER t) [zero]])
| zeroed_aggregate d es ss : elements tags d es -> all_zeroed tags es ss -> zeroed tags d (init_node ss)
with all_zeroed (tags : tagtab) : list dtype -> list srt -> Prop :=
| all_zeroed_nil : all_zeroed tags [] []
| all_zeroed_cons d s ds ss : zeroed tags d s -> all_zeroed tags ds ss -> all_zeroed tags (d :: ds) (s :: ss).

(** ** The rules for expressions and types *)
Inductive elab : env -> ast -> srt -> env -> Prop :=
| elab_variable E p cs n y d : p = PName n -> sym_search (e_syms E) n = Some y -> (forall i, sy_kind y <> SYMBOL_INT i) -> d = sy_dtype y ->
    elab E (Ast AST_IDENT_EXPR p cs) (Srt SRT_IDENT_EXPR (Some d) (SPName n) []) E
| elab_enum_constant E p cs n y i : p = PName n -> sym_search (e_syms E) n = Some y -> sy_kind y = SYMBOL_INT i ->
    elab E (Ast AST_IDENT_EXPR p cs) (Srt SRT_ILITERAL_EXPR (Some DTYPE_INT) (SPInt i) []) E
| elab_integer E p cs i : p = PInt i ->
    elab E (Ast AST_INT_EXPR p cs) (Srt SRT_ILITERAL_EXPR (Some (constant_type i)) (SPInt i) []) E
| elab_character E p cs i : p = PInt i ->
    elab E (Ast AST_CHAR_EXPR p cs) (Srt SRT_ILITERAL_EXPR (Some DTYPE_INT) (SPInt i) []) E
| elab_string E p cs s id : p = PStr s -> id = Z.of_nat (length (e_strings E)) ->
    elab E (Ast AST_STRING_EXPR p cs) (Srt SRT_STR_EXPR (Some (DTYPE_ARRAY DTYPE_CHAR (Z.of_nat (length s)))) (SPStrId id) []) (with_string E s)
| elab_subscript E p a b cs l lv E1 r rv E2 ptr i e : elab E a l E1 -> value_of l lv -> elab E1 b r E2 -> value_of r rv ->
    ((ptr = lv /\ i = rv) \/ (ptr = rv /\ i = lv)) -> has ptr (DTYPE_POINTER e) -> object_type e -> (exists d, has i d /\ integer d) ->
    elab E (Ast AST_SUBSC_EXPR p (a :: b :: cs)) (node SRT_INDIR_EXPR e [node SRT_PADD_EXPR (DTYPE_POINTER e) [ptr; i]]) E2
| elab_call E p a q args cs0 cs f fv E1 ps ret ss E2 : elab E a f E1 -> value_of f fv -> has fv (DTYPE_POINTER (DTYPE_FUNCTION ps ret)) ->
    elab_arguments E1 ps args ss E2 ->
    elab E (Ast AST_CALL_EXPR p (a :: Ast cs0 q args :: cs)) (node SRT_CALL_EXPR ret [fv; Srt SRT_ARG_LIST None SPNone ss]) E2
| elab_member E p a t q mcs cs l E1 d n ms md : elab E a l E1 -> has l d -> members_of (e_tags E1) d ms -> q = PName n -> member_of ms n md ->
    elab E (Ast AST_MEMBER_EXPR p (a :: Ast t q mcs :: cs))
      (node SRT_TOMEMBER_EXPR md [address d l; Srt SRT_IDENT_EXPR (Some md) (SPName n) []]) E1
| elab_arrow E p a t q mcs cs l E1 d n ms md : elab E a l E1 -> has l (DTYPE_POINTER d) -> members_of (e_tags E1) d ms -> q = PName n -> member_of ms n md ->
    elab E (Ast AST_TOMEMBER_EXPR p (a :: Ast t q mcs :: cs))
      (node SRT_TOMEMBER_EXPR md [l; Srt SRT_IDENT_EXPR (Some md) (SPName n) []]) E1
| elab_incdec E p a cs t t' l E1 d : In (t, t') incdec_operators -> elab E a l E1 -> modifiable l -> has l d -> scalar d ->
    elab E (Ast t p (a :: cs)) (node t' d [address d l]) E1
| elab_address E p a cs l E1 d : elab E a l E1 -> has l d -> addressable l ->
    elab E (Ast AST_ADDR_EXPR p (a :: cs)) (address d l) E1
| elab_indirection E p a cs s v E1 e : elab E a s E1 -> value_of s v -> has v (DTYPE_POINTER e) ->
    elab E (Ast AST_INDIR_EXPR p (a :: cs)) (node SRT_INDIR_EXPR e [v]) E1
| elab_unary E p a cs t t' s s' E1 d : In (t, t') unary_operators -> elab E a s E1 -> promoted s s' d ->
    elab E (Ast t p (a :: cs)) (node t' d [s']) E1
| elab_not E p a cs s v E1 d : elab E a s E1 -> value_of s v -> has v d -> scalar d ->
    elab E (Ast AST_LNOT_EXPR p (a :: cs)) (node SRT_LNOT_EXPR DTYPE_INT [v]) E1
| elab_sizeof_type E p t q ts cs d E1 i : t = AST_TYPE_NAME -> type_name E (Ast t q ts) d E1 -> ~ incomplete d -> (forall ps r, d <> DTYPE_FUNCTION ps r) ->
    itype i = IInt -> sval i = sizeof d ->
    elab E (Ast AST_SIZEOF_EXPR p (Ast t q ts :: cs)) (Srt SRT_ILITERAL_EXPR (Some DTYPE_INT) (SPInt i) []) E1
| elab_sizeof_expr E p a cs s d E1 i : elab E a s E1 -> has s d -> ~ incomplete d -> (forall ps r, d <> DTYPE_FUNCTION ps r) ->
    itype i = IInt -> sval i = sizeof d ->
    elab E (Ast AST_SIZEOF_EXPR p (a :: cs)) (Srt SRT_ILITERAL_EXPR (Some DTYPE_INT) (SPInt i) []) E1
| elab_cast E p t a cs d E1 s ds E2 : type_name E t d E1 -> elab E1 a s E2 -> has s ds -> (d = DTYPE_VOID \/ (scalar d /\ scalar ds)) ->
    elab E (Ast AST_CAST_EXPR p (t :: a :: cs)) (node SRT_CAST_EXPR d [s]) E2
| elab_binary E p a b cs t t' l lv E1 r rv E2 l' r' d : In (t, t') integer_operators ->
    elab E a l E1 -> value_of l lv -> elab E1 b r E2 -> value_of r rv -> balanced_to lv rv l' r' d ->
    elab E (Ast t p (a :: b :: cs)) (node t' d [l'; r']) E2
| elab_pointer_plus E p a b cs l lv E1 r rv E2 ptr i e : elab E a l E1 -> value_of l lv -> elab E1 b r E2 -> value_of r rv ->
    ((ptr = lv /\ i = rv) \/ (ptr = rv /\ i = lv)) -> has ptr (DTYPE_POINTER e) -> (exists d, has i d /\ integer d) ->
    elab E (Ast AST_ADD_EXPR p (a :: b :: cs)) (node SRT_PADD_EXPR (DTYPE_POINTER e) [ptr; i]) E2
| elab_pointer_minus E p a b cs l lv E1 r rv E2 e : elab E a l E1 -> value_of l lv -> elab E1 b r E2 -> value_of r rv ->
    has lv (DTYPE_POINTER e) -> (exists d, has rv d /\ integer d) ->
    elab E (Ast AST_SUB_EXPR p (a :: b :: cs)) (node SRT_PSUB_EXPR (DTYPE_POINTER e) [lv; rv]) E2
| elab_pointer_difference E p a b cs l lv E1 r rv E2 e e' : elab E a l E1 -> value_of l lv -> elab E1 b r E2 -> value_of r rv ->
    has lv (DTYPE_POINTER e) -> has rv (DTYPE_POINTER e') -> same_type e e' ->
    elab E (Ast AST_SUB_EXPR p (a :: b :: cs)) (node SRT_PDIFF_EXPR DTYPE_UNSIGNED_LONGLONG [lv; rv]) E2
| elab_compare E p a b cs t t' l lv E1 r rv E2 l' r' d : In (t, t') comparison_operators ->
    elab E a l E1 -> value_of l lv -> elab E1 b r E2 -> value_of r rv -> balanced_to lv rv l' r' d ->
    elab E (Ast t p (a :: b :: cs)) (node t' DTYPE_INT [l'; r']) E2
| elab_compare_pointers E p a b cs t t' l lv E1 r rv E2 e e' : In (t, t') comparison_operators ->
    elab E a l E1 -> value_of l lv -> elab E1 b r E2 -> value_of r rv -> has lv (DTYPE_POINTER e) -> has rv (DTYPE_POINTER e') -> same_type e e' ->
    elab E (Ast t p (a :: b :: cs)) (node t' DTYPE_INT [lv; rv]) E2
| elab_logical E p a b cs t t' l lv E1 r rv E2 dl dr : (t, t') = (AST_LOR_EXPR, SRT_LOR_EXPR) \/ (t, t') = (AST_LAND_EXPR, SRT_LAND_EXPR) ->
    elab E a l E1 -> value_of l lv -> elab E1 b r E2 -> value_of r rv -> has lv dl -> scalar dl -> has rv dr -> scalar dr ->
    elab E (Ast t p (a :: b :: cs)) (node t' DTYPE_INT [lv; rv]) E2
| elab_conditional E p c a b cs s sv E1 ds l lv E2 r rv E3 l' r' d : elab E c s E1 -> value_of s sv -> has sv ds -> scalar ds ->
    elab E1 a l E2 -> value_of l lv -> elab E2 b r E3 -> value_of r rv -> balanced_to lv rv l' r' d ->
    elab E (Ast AST_COND_EXPR p (c :: a :: b :: cs)) (node SRT_COND_EXPR d [sv; l'; r']) E3
| elab_conditional_same E p c a b cs s sv E1 ds l lv E2 r rv E3 d d' : elab E c s E1 -> value_of s sv -> has sv ds -> scalar ds ->
    elab E1 a l E2 -> value_of l lv -> elab E2 b r E3 -> value_of r rv -> has lv d -> has rv d' -> same_type d d' ->
    (exists t, d = DTYPE_POINTER t) \/ structure d ->
    elab E (Ast AST_COND_EXPR p (c :: a :: b :: cs)) (node SRT_COND_EXPR d [sv; lv; rv]) E3
| elab_assign E p a b cs l E1 r rv E2 r' d dr : elab E a l E1 -> elab E1 b r E2 -> value_of r rv ->
    modifiable l -> has l d -> has rv dr -> assignable d dr -> assigned_to d rv r' ->
    elab E (Ast AST_ASSIGN_EXPR p (a :: b :: cs)) (node SRT_ASSIGN_EXPR d [address d l; r']) E2
| elab_compound E p a b cs t t' s E1 : In (t, t') compound_operators ->
    elab E (Ast AST_ASSIGN_EXPR PNone [a; Ast t' PNone [a; b]]) s E1 ->
    elab E (Ast t p (a :: b :: cs)) s E1
with elab_arguments : env -> list (option name * dtype) -> list ast -> list srt -> env -> Prop :=
| elab_no_arguments E : elab_arguments E [] [] [] E
| elab_argument E n d ps a args s v v' dv E1 ss E2 : elab E a s E1 -> value_of s v -> has v dv -> assignable d dv -> assigned_to d v v' ->
    elab_arguments E1 ps args ss E2 -> elab_arguments E ((n, d) :: ps) (a :: args) (v' :: ss) E2
(** [type_name E a d E']: the type name [a] denotes [d] *)
with type_name : env -> ast -> dtype -> env -> Prop :=
| type_name_rule E p t ts q specs da cs base E1 n d E2 : specifiers E specs base E1 -> declarator E1 false AroundNone base da n d E2 ->
    type_name E (Ast t p (Ast ts q specs :: da :: cs)) d E2
(** [specifiers E l d E']: the specifiers [l] denote [d] *)
with specifiers : env -> list ast -> dtype -> env -> Prop :=
| specifiers_basic E l d : spells (List.map ast_type l) d -> specifiers E l d E
| specifiers_struct E p q n mcs cs d : (match cs with Ast AST_STRUCT_DECL_LIST _ _ :: _ => False | _ => True end) ->
    (tag_search (e_tags E) n = None /\ d = DTYPE_NSTRUCT n 0 0
     \/ exists ms size align, tag_search (e_tags E) n = Some (DTYPE_USTRUCT ms size align) /\ d = DTYPE_NSTRUCT n size align) -> q = PName n ->
    specifiers E [Ast AST_TYPE_STRUCT p (Ast AST_STRUCT_NAME q mcs :: cs)] d E
| specifiers_unnamed_struct E p q decls cs ms members size align E1 : struct_decls E decls ms E1 -> NoDup (List.map fst ms) ->
    struct_type ms members size align ->
    specifiers E [Ast AST_TYPE_STRUCT p (Ast AST_STRUCT_DECL_LIST q decls :: cs)] (DTYPE_USTRUCT members size align) E1
| specifiers_struct_definition E p q n mcs q2 decls cs ms members size align E1 : q = PName n ->
    struct_decls E decls ms E1 -> NoDup (List.map fst ms) -> struct_type ms members size align -> tag_undeclared (e_tags E1) n ->
    specifiers E [Ast AST_TYPE_STRUCT p (Ast AST_STRUCT_NAME q mcs :: Ast AST_STRUCT_DECL_LIST q2 decls :: cs)]
      (DTYPE_NSTRUCT n size align) (with_tags E1 (tag_add (e_tags E1) n (DTYPE_USTRUCT members size align)))
| specifiers_enum E p q n mcs cs : q = PName n -> (match cs with Ast AST_ENUMOR_LIST _ _ :: _ => False | _ => True end) ->
    specifiers E [Ast AST_TYPE_ENUM p (Ast AST_ENUM_NAME q mcs :: cs)] DTYPE_INT E
| specifiers_unnamed_enum E p q l cs vs E1 : enumerators E 0 l vs E1 ->
    specifiers E [Ast AST_TYPE_ENUM p (Ast AST_ENUMOR_LIST q l :: cs)] DTYPE_INT E1
| specifiers_enum_definition E p q n mcs q2 l cs vs E1 : q = PName n -> enumerators E 0 l vs E1 -> tag_undeclared (e_tags E1) n ->
    specifiers E [Ast AST_TYPE_ENUM p (Ast AST_ENUM_NAME q mcs :: Ast AST_ENUMOR_LIST q2 l :: cs)]
      DTYPE_INT (with_tags E1 (tag_add (e_tags E1) n (DTYPE_UENUM vs)))
| specifiers_typedef_name E p cs n y d : p = PName n -> sym_search (e_syms E) n = Some y -> sy_dtype y = DTYPE_TYPEDEF d ->
    ~ incomplete d -> specifiers E [Ast AST_TYPEDEF_NAME p cs] d E
(** a typedef of a struct that was incomplete takes the definition the struct has by now *)
| specifiers_typedef_struct E p cs n y sn s a d : p = PName n -> sym_search (e_syms E) n = Some y -> sy_dtype y = DTYPE_TYPEDEF (DTYPE_NSTRUCT sn s a) ->
    s <= 0 -> (tag_search (e_tags E) sn = None /\ d = DTYPE_NSTRUCT sn s a
               \/ exists ms size align, tag_search (e_tags E) sn = Some (DTYPE_USTRUCT ms size align) /\ d = DTYPE_NSTRUCT sn size align) ->
    specifiers E [Ast AST_TYPEDEF_NAME p cs] d E
(** members of a struct, in order *)
with struct_decls : env -> list ast -> list (name * dtype) -> env -> Prop :=
| struct_decls_nil E : struct_decls E [] [] E
| struct_decls_cons E t p ts q specs tl ql ds cs rest base E1 ms1 E2 ms2 E3 : specifiers E specs base E1 ->
    struct_declarators E1 base ds ms1 E2 -> struct_decls E2 rest ms2 E3 ->
    struct_decls E (Ast t p (Ast ts q specs :: Ast tl ql ds :: cs) :: rest) (ms1 ++ ms2) E3
with struct_declarators : env -> dtype -> list ast -> list (name * dtype) -> env -> Prop :=
| struct_declarators_nil E base : struct_declarators E base [] [] E
| struct_declarators_cons E base da rest n d E1 ms E2 : declarator E false AroundNone base da (Some n) d E1 ->
    ~ incomplete d -> (forall ps r, d <> DTYPE_FUNCTION ps r) -> struct_declarators E1 base rest ms E2 ->
    struct_declarators E base (da :: rest) ((n, d) :: ms) E2
(** enumeration constants, the next default value being [v] (6.7.2.2) *)
with enumerators : env -> Z -> list ast -> list (name * Z) -> env -> Prop :=
| enumerators_nil E v : enumerators E v [] [] E
| enumerators_default E v t p tn q ncs n rest syms vs E1 : q = PName n -> undeclared (e_syms E) n ->
    sym_define_integer (e_syms E) n DTYPE_INT (new_signed IInt v) = Ok syms -> v < INT_MAX ->
    enumerators (with_syms E syms) (v + 1) rest vs E1 ->
    enumerators E v (Ast t p [Ast tn q ncs] :: rest) ((n, v) :: vs) E1
| enumerators_value E v t p tn q ncs a cs n rest s E1 c w syms vs E2 : q = PName n -> undeclared (e_syms E) n ->
    elab E a s E1 -> literal_value s c -> as_int c w ->
    sym_define_integer (e_syms E1) n DTYPE_INT (new_signed IInt w) = Ok syms -> w < INT_MAX ->
    enumerators (with_syms E1 syms) (w + 1) rest vs E2 ->
    enumerators E v (Ast t p (Ast tn q ncs :: a :: cs) :: rest) ((n, w) :: vs) E2
(** [declarator E typedef out base a n d E']: applied to the type [base] the declarator [a] gives the name [n] the type [d] *)
with declarator : env -> bool -> around -> dtype -> ast -> option name -> dtype -> env -> Prop :=
| declarator_name E td out base p cs n : p = PName n -> derivable td out base ->
    declarator E td out base (Ast AST_IDENT_DECLOR p cs) (Some n) base E
| declarator_abstract E td out base p cs : derivable td out base ->
    declarator E td out base (Ast AST_ABS_DECLOR p cs) None base E
| declarator_pointer E td out base p c cs n d E1 : declarator E td AroundPointer base c n d E1 ->
    declarator E td out base (Ast AST_PTR_DECLOR p (c :: cs)) n (DTYPE_POINTER d) E1
(** the bound is an integer constant greater than 0, of which the compiler keeps 32 bits (C28_array_bound_refuted) *)
| declarator_array E td out base p c a cs s E1 v w n d E2 : out <> AroundFunction -> elab E a s E1 -> literal_value s v -> 0 < v -> as_int v w ->
    declarator E1 td AroundArray base c n d E2 ->
    declarator E td out base (Ast AST_ARRAY_DECLOR p (c :: a :: cs)) n (DTYPE_ARRAY d w) E2
| declarator_function E td out base p c t q l cs ps E1 n d E2 : out <> AroundFunction -> out <> AroundArray ->
    parameters E l ps E1 -> declarator E1 td AroundFunction base c n d E2 ->
    declarator E td out base (Ast AST_FUNC_DECLOR p (c :: Ast t q l :: cs)) n (DTYPE_FUNCTION ps d) E2
with parameters : env -> list ast -> list (option name * dtype) -> env -> Prop :=
| parameters_void E t p ts q pv vs pa da cs :
    parameters E [Ast t p (Ast ts q [Ast AST_TYPE_VOID pv vs] :: Ast AST_ABS_DECLOR pa da :: cs)] [] E
| parameters_named E l ps E1 : parameter_list E l ps E1 -> (forall n i j d d', nth_error ps i = Some (Some n, d) -> nth_error ps j = Some (Some n, d') -> i = j) ->
    parameters E l ps E1
with parameter_list : env -> list ast -> list (option name * dtype) -> env -> Prop :=
| parameter_list_nil E : parameter_list E [] [] E
| parameter_list_cons E t p ts q specs da cs rest base E1 n d E2 ps E3 : (forall c, In c specs -> ast_type c <> AST_STG_TYPEDEF) ->
    specifiers E specs base E1 -> declarator E1 false AroundNone base da n d E2 -> ~ incomplete (adjusted d) ->
    parameter_list E2 rest ps E3 ->
    parameter_list E (Ast t p (Ast ts q specs :: da :: cs) :: rest) ((n, adjusted d) :: ps) E3.

(** ** Initialisers (6.7.9).  [initializer E d a s E']: [a] initialises an object of type [d] *)
Inductive initializer : env -> dtype -> ast -> srt -> env -> Prop :=
| initializer_scalar E d a e s v v' dv E1 : scalar d -> (~ braced a /\ e = a \/ exists p, a = Ast AST_INIT_LIST p [e]) ->
    elab E e s E1 -> value_of s v -> has v dv -> assignable d dv -> assigned_to d v v' ->
    initializer E d a (init_node [v']) E1
| initializer_string E n a p cs str str' : a = Ast AST_STRING_EXPR p cs \/ (exists q, a = Ast AST_INIT_LIST q [Ast AST_STRING_EXPR p cs]) ->
    p = PStr str -> Z.of_nat (length str) - 1 <= n -> padded str n str' ->
    initializer E (DTYPE_ARRAY DTYPE_CHAR n) a (init_node [Srt SRT_SLITERAL_EXPR (Some (DTYPE_ARRAY DTYPE_CHAR n)) (SPStr str') []]) E
| initializer_list E d p items es ss E1 : elements (e_tags E) d es -> fill items E es items ss [] E1 ->
    initializer E d (Ast AST_INIT_LIST p items) (init_node ss) E1
(** [fill all E es items ss rest E']: the first of the [items] of a list (whose items are [all]) initialise objects of
    the types [es], the items [rest] are left over *)
with fill : list ast -> env -> list dtype -> list ast -> list srt -> list ast -> env -> Prop :=
| fill_all all E items : fill all E [] items [] items E
| fill_zero all E es zs : all_zeroed (e_tags E) es zs -> fill all E es [] zs [] E
| fill_item all E e es c items x E1 ss rest E2 : (aggregate e -> braced c) -> initializer E e c x E1 -> fill all E1 es items ss rest E2 ->
    fill all E (e :: es) (c :: items) (x :: ss) rest E2
(** braces left out: the items go on in the elements of [e] *)
| fill_elided all E e es c items es' xs rest1 E1 ss rest E2 : aggregate e -> ~ braced c -> elements (e_tags E) e es' ->
    fill all E es' (c :: items) xs rest1 E1 -> fill all E1 es rest1 ss rest E2 ->
    fill all E (e :: es) (c :: items) (init_node xs :: ss) rest E2
(** a string that is the only item initialises a char array and is used again (C27_string_reused_refuted) *)
| fill_string all E n es p cs str str' ss rest E1 : all = [Ast AST_STRING_EXPR p cs] -> p = PStr str -> Z.of_nat (length str) - 1 <= n -> padded str n str' ->
    fill all E es all ss rest E1 ->
    fill all E (DTYPE_ARRAY DTYPE_CHAR n :: es) all
      (init_node [Srt SRT_SLITERAL_EXPR (Some (DTYPE_ARRAY DTYPE_CHAR n)) (SPStr str') []] :: ss) rest E1.

(** ** Declarations (6.7) *)
Definition is_typedef_specifier (a : ast) : Prop := ast_type a = AST_STG_TYPEDEF.
(** the specifiers without `typedef`, and whether it was there *)
Inductive decl_specifiers : list ast -> bool -> list ast -> Prop :=
| decl_specifiers_nil : decl_specifiers [] false []
| decl_specifiers_typedef a l td l' : is_typedef_specifier a -> decl_specifiers l td l' -> decl_specifiers (a :: l) true l'
| decl_specifiers_other a l td l' : ~ is_typedef_specifier a -> decl_specifiers l td l' -> decl_specifiers (a :: l) td (a :: l').
(** the declared name: static (no slot) at file scope, and for functions and typedefs; else with a slot in the frame *)
Definition declares (t : symtab) (n : name) (d : dtype) (t' : symtab) : Prop :=
  if (Nat.eqb (length t) 1) then sym_define_label t n d = Ok t'
  else (object_type d /\ sym_define_memory t n d = Ok t') \/ (~ object_type d /\ sym_define_label t n d = Ok t').
Inductive init_declarators : env -> bool -> dtype -> list ast -> list srt -> env -> Prop :=
| init_declarators_nil E td base : init_declarators E td base [] [] E
| init_declarators_plain E td base t p da rest n d0 d E1 syms ss E2 : declarator E td AroundNone base da (Some n) d0 E1 ->
    d = (if td then DTYPE_TYPEDEF d0 else d0) -> undeclared (e_syms E1) n -> ~ incomplete d -> declares (e_syms E1) n d syms ->
    init_declarators (with_syms E1 syms) td base rest ss E2 ->
    init_declarators E td base (Ast t p [da] :: rest)
      (Srt SRT_INIT_DECL None SPNone [Srt SRT_IDENT_DECL (Some d) (SPName n) []] :: ss) E2
| init_declarators_init E td base t p da ia cs rest n d0 d E1 syms i E2 ss E3 : declarator E td AroundNone base da (Some n) d0 E1 ->
    d = (if td then DTYPE_TYPEDEF d0 else d0) -> undeclared (e_syms E1) n -> ~ incomplete d -> declares (e_syms E1) n d syms ->
    initializer (with_syms E1 syms) d ia i E2 ->
    init_declarators E2 td base rest ss E3 ->
    init_declarators E td base (Ast t p (da :: ia :: cs) :: rest)
      (Srt SRT_INIT_DECL None SPNone [Srt SRT_IDENT_DECL (Some d) (SPName n) []; i] :: ss) E3.
Inductive declaration_rule : env -> ast -> srt -> env -> Prop :=
| declaration_empty E t p ts q l td specs base E1 : decl_specifiers l td specs -> specifiers E specs base E1 ->
    declaration_rule E (Ast t p [Ast ts q l]) (Srt SRT_DECL_LIST None SPNone []) E1
| declaration_list E t p ts q l tl ql ds cs td specs base E1 ss E2 : decl_specifiers l td specs -> specifiers E specs base E1 ->
    init_declarators E1 td base ds ss E2 ->
    declaration_rule E (Ast t p (Ast ts q l :: Ast tl ql ds :: cs)) (Srt SRT_DECL_LIST None SPNone ss) E2.

(** ** Statements (6.8) *)
Record context := mkcontext { in_loop : bool; in_switch : bool; returns : option dtype }.
Definition stmt_node (t : srttype) (cs : list srt) : srt := Srt t None SPNone cs.
Definition tag_decl (s : srt) : bool := match s with Srt SRT_TAG_DECL (Some (DTYPE_USTRUCT _ _ _)) (SPName _) [] => true | _ => false end.
(** the case values and the number of default labels of a statement, without those of switch statements inside *)
Fixpoint cases_of (s : srt) : list Z :=
  let 'Srt t _ _ cs := s in
  match t, cs with
  | SRT_CASE_STMT, Srt _ _ (SPInt i) _ :: b => sval i :: flat_map cases_of b
  | SRT_CMPD_STMT, _ | SRT_DEFAULT_STMT, _ | SRT_FOR_STMT, _ => flat_map cases_of cs
  | SRT_IF_STMT, _ :: b | SRT_WHILE_STMT, _ :: b => flat_map cases_of b
  | _, _ => []
  end.
Fixpoint defaults_of (s : srt) : nat :=
  let 'Srt t _ _ cs := s in
  match t, cs with
  | SRT_DEFAULT_STMT, _ => S (list_sum (List.map defaults_of cs))
  | SRT_CMPD_STMT, _ | SRT_FOR_STMT, _ => list_sum (List.map defaults_of cs)
  | SRT_CASE_STMT, _ :: b | SRT_IF_STMT, _ :: b | SRT_WHILE_STMT, _ :: b => list_sum (List.map defaults_of b)
  | _, _ => O
  end.
Definition entered (E : env) : env := mkenv (sym_enter (e_syms E)) (tag_enter (e_tags E)) (e_strings E).
Definition left_scope (E E' : env) : Prop := sym_exit (e_syms E) = Ok (e_syms E') /\ tag_exit (e_tags E) = Ok (e_tags E') /\ e_strings E' = e_strings E.

Inductive stmt (C : context) : env -> ast -> srt -> env -> Prop :=
| stmt_block E p items cs E1 E' : block C (entered E) items cs E1 -> left_scope E1 E' ->
    stmt C E (Ast AST_CMPD_STMT p items) (stmt_node SRT_CMPD_STMT cs) E'
| stmt_case E p a b cs c v E1 s E2 : in_switch C = true -> elab E a c E1 -> literal_value c v -> stmt C E1 b s E2 ->
    stmt C E (Ast AST_CASE_STMT p (a :: b :: cs)) (stmt_node SRT_CASE_STMT [c; s]) E2
| stmt_default E p b cs s E1 : in_switch C = true -> stmt C E b s E1 ->
    stmt C E (Ast AST_DEFAULT_STMT p (b :: cs)) (stmt_node SRT_DEFAULT_STMT [s]) E1
| stmt_continue E p cs : in_loop C = true -> stmt C E (Ast AST_CONTINUE_STMT p cs) (stmt_node SRT_CONTINUE_STMT []) E
| stmt_break E p cs : in_loop C = true \/ in_switch C = true -> stmt C E (Ast AST_BREAK_STMT p cs) (stmt_node SRT_BREAK_STMT []) E
| stmt_return E p : returns C = Some DTYPE_VOID -> stmt C E (Ast AST_RET_STMT p []) (stmt_node SRT_RET_STMT []) E
| stmt_return_value E p a cs r s v v' dv E1 : returns C = Some r -> r <> DTYPE_VOID -> elab E a s E1 -> value_of s v -> has v dv ->
    assignable r dv -> assigned_to r v v' ->
    stmt C E (Ast AST_RET_STMT p (a :: cs)) (stmt_node SRT_RET_STMT [v']) E1
| stmt_expression E p a cs s v E1 : elab E a s E1 -> value_of s v ->
    stmt C E (Ast AST_EXPR_STMT p (a :: cs)) (stmt_node SRT_EXPR_STMT [v]) E1
| stmt_null E p cs : stmt C E (Ast AST_NULL_STMT p cs) (stmt_node SRT_NULL_STMT []) E
| stmt_if E p a b c v d E1 s E2 : elab E a c E1 -> value_of c v -> has v d -> scalar d -> stmt C E1 b s E2 ->
    stmt C E (Ast AST_IF_STMT p [a; b]) (stmt_node SRT_IF_STMT [v; s]) E2
| stmt_if_else E p a b b' cs c v d E1 s E2 s' E3 : elab E a c E1 -> value_of c v -> has v d -> scalar d -> stmt C E1 b s E2 -> stmt C E2 b' s' E3 ->
    stmt C E (Ast AST_IF_STMT p (a :: b :: b' :: cs)) (stmt_node SRT_IF_STMT [v; s; s']) E3
| stmt_switch E p a b cs c v v' d E1 s E2 : elab E a c E1 -> value_of c v -> promoted v v' d ->
    stmt (mkcontext (in_loop C) true (returns C)) E1 b s E2 -> NoDup (cases_of s) -> (defaults_of s <= 1)%nat ->
    stmt C E (Ast AST_SWITCH_STMT p (a :: b :: cs)) (stmt_node SRT_SWITCH_STMT [v'; s]) E2
| stmt_while E p a b cs c v d E1 s E2 : elab E a c E1 -> value_of c v -> has v d -> scalar d ->
    stmt (mkcontext true (in_switch C) (returns C)) E1 b s E2 ->
    stmt C E (Ast AST_WHILE_STMT p (a :: b :: cs)) (stmt_node SRT_WHILE_STMT [v; s]) E2
| stmt_for E p i c u b cs si E1 sc E2 su E3 sb E4 E' :
    ast_type i <> AST_DECL -> stmt C (entered E) i si E1 ->
    stmt C E1 c sc E2 -> (forall e, sc = stmt_node SRT_EXPR_STMT [e] -> exists d, has e d /\ scalar d) ->
    stmt C E2 u su E3 -> stmt (mkcontext true (in_switch C) (returns C)) E3 b sb E4 -> left_scope E4 E' ->
    stmt C E (Ast AST_FOR_STMT p (i :: c :: u :: b :: cs)) (stmt_node SRT_FOR_STMT [si; sc; su; sb]) E'
| stmt_for_declaration E p i c u b cs si E1 sc E2 su E3 sb E4 E' :
    ast_type i = AST_DECL -> declaration_rule (entered E) i si E1 ->
    stmt C E1 c sc E2 -> (forall e, sc = stmt_node SRT_EXPR_STMT [e] -> exists d, has e d /\ scalar d) ->
    stmt C E2 u su E3 -> stmt (mkcontext true (in_switch C) (returns C)) E3 b sb E4 -> left_scope E4 E' ->
    stmt C E (Ast AST_FOR_STMT p (i :: c :: u :: b :: cs)) (stmt_node SRT_FOR_STMT [si; sc; su; sb]) E'
(** the items of a block in order, with the definitions of struct tags in between *)
with block (C : context) : env -> list ast -> list srt -> env -> Prop :=
| block_nil E : block C E [] [] E
| block_tag E items s cs E' : tag_decl s = true -> block C E items cs E' -> block C E items (s :: cs) E'
| block_declaration E a items s E1 cs E' : ast_type a = AST_DECL -> declaration_rule E a s E1 -> block C E1 items cs E' ->
    block C E (a :: items) (s :: cs) E'
| block_statement E a items s E1 cs E' : ast_type a <> AST_DECL -> stmt C E a s E1 -> block C E1 items cs E' ->
    block C E (a :: items) (s :: cs) E'.

(** ** Programs (6.9) *)
Fixpoint declare_parameters (ps : list (option name * dtype)) (t t' : symtab) : Prop :=
  match ps with
  | [] => t' = t
  | (Some n, d) :: r => exists t1, sym_define_memory t n d = Ok t1 /\ declare_parameters r t1 t'
  | (None, _) :: _ => False
  end.
(** a string literal becomes a static char array of its own, with the number of the literal *)
Definition string_of (s : srt) : option (Z * list Z) :=
  match s with
  | Srt SRT_DECL_LIST None SPNone [Srt SRT_INIT_DECL None SPNone
      [Srt SRT_STR_DECL (Some (DTYPE_ARRAY DTYPE_CHAR n)) (SPStrId id) [];
       Srt SRT_INIT None SPNone [Srt SRT_SLITERAL_EXPR (Some (DTYPE_ARRAY DTYPE_CHAR m)) (SPStr str) []]]] =>
      if Z.eqb n (Z.of_nat (length str)) && Z.eqb m (Z.of_nat (length str)) then Some (id, str) else None
  | _ => None
  end.
Definition string_decl (s : srt) : bool := match string_of s with Some _ => true | None => false end.
Definition string_decls (cs : list srt) : list (Z * list Z) := flat_map (fun s => match string_of s with Some x => [x] | None => [] end) cs.
Fixpoint numbered (i : Z) (l : list (list Z)) : list (Z * list Z) :=
  match l with [] => [] | s :: r => (i, s) :: numbered (i + 1) r end.
Inductive function_definition : env -> ast -> srt -> env -> Prop :=
| function_rule E t p ts q specs da tb qb items cs base E1 n ps ret E2 syms1 syms2 syms3 body E3 syms4 E4 :
    (forall c, In c specs -> ast_type c <> AST_STG_TYPEDEF) -> specifiers E specs base E1 ->
    declarator E1 false AroundNone base da (Some n) (DTYPE_FUNCTION ps ret) E2 -> undeclared (e_syms E2) n ->
    sym_define_label (e_syms E2) n (DTYPE_FUNCTION ps ret) = Ok syms1 -> sym_set_nbytes (sym_enter syms1) 0 = Ok syms2 ->
    declare_parameters ps syms2 syms3 ->
    block (mkcontext false false (Some ret)) (mkenv syms3 (tag_enter (e_tags E2)) (e_strings E2)) items body E3 ->
    sym_set_nbytes (e_syms E3) 0 = Ok syms4 -> left_scope (with_syms E3 syms4) E4 ->
    function_definition E (Ast t p (Ast ts q specs :: da :: Ast tb qb items :: cs))
      (Srt SRT_FUNC_DEF None SPNone [Srt SRT_IDENT_DECL (Some (DTYPE_FUNCTION ps ret)) (SPName n) []; stmt_node SRT_CMPD_STMT body]) E4.
Inductive unit_items : env -> list ast -> list srt -> env -> Prop :=
| unit_nil E : unit_items E [] [] E
| unit_hidden E items s cs E' : tag_decl s = true \/ string_decl s = true -> unit_items E items cs E' -> unit_items E items (s :: cs) E'
| unit_function E a items s E1 cs E' : ast_type a = AST_FUNC_DEF -> function_definition E a s E1 -> unit_items E1 items cs E' ->
    unit_items E (a :: items) (s :: cs) E'
| unit_declaration E a items s E1 cs E' : ast_type a <> AST_FUNC_DEF -> declaration_rule E a s E1 -> unit_items E1 items cs E' ->
    unit_items E (a :: items) (s :: cs) E'.
(** the declared strings are the literals of the source in their order, numbered from 0 *)
Definition program (a : ast) (s : srt) : Prop :=
  exists cs E', s = stmt_node SRT_TRAS_UNIT cs /\ unit_items (mkenv new_symtab new_tagtab []) (ast_children a) cs E'
    /\ string_decls cs = numbered 0 (e_strings E').
