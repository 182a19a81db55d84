(** C23-C28: what the type checker guarantees about every program it accepts.  ElabSpec has the typing rules as a relation, ResolverSpec
    the properties of the typed tree. *)
From Verif Require Import Base DriverModel AstModel DtypeModel SymtabModel SrtModel ResolverModel TypeSpec TypeWitness ElabSpec ElabProofs2 ElabProofs5 ResolverSpec ResolverProofs ResolverProofs2 ResolverWitness.
Local Open Scope Z_scope.

(** C23: an accepted program is typed by the rules of ElabSpec, and its typed tree is the one these rules give.  They are the rules
    of C11 except where they say so; the exceptions found to matter are refuted below. *)
Theorem C23_rules_partial : forall a s,
  resolve a = Ok s -> program a s.
Proof. exact resolve_sound. Qed.
Print Assumptions C23_rules_partial.
Definition C23_source : list Z := bytes "struct S { char c; long v[3]; }; long f(struct S *p, int i){ return p->v[i] * 2 + (i < 3 ? p->c : 7); }".
Example C23_case : exists toks a s, lex_source C23_source = Ok toks /\ parse_tokens toks = Ok a /\ resolve a = Ok s.
Proof. eexists. eexists. eexists. split; [vm_compute; reflexivity |]. split; [vm_compute; reflexivity |]. vm_compute. reflexivity. Qed.

(** Every node of the typed tree has operands and a result of fitting types *)
Theorem C23_nodes_partial : forall a s around x,
  resolve a = Ok s -> occurs s around x -> node_typed x.
Proof. exact resolve_typed. Qed.
Print Assumptions C23_nodes_partial.

(** The type of a shift depends on its right operand *)
Theorem C23_shift_refuted : exists s around x, front shift_source = Ok s /\ occurs s around x /\
  exists one two, x = node SRT_LSHIFT_EXPR DTYPE_LONG [node SRT_CAST_EXPR DTYPE_LONG [one]; two] /\ has one DTYPE_INT.
Proof. exact shift_witness. Qed.
Print Assumptions C23_shift_refuted.

(** The difference of pointers is unsigned *)
Theorem C23_difference_refuted : exists s around x, front difference_source = Ok s /\ occurs s around x /\
  srt_type x = SRT_PDIFF_EXPR /\ has x DTYPE_UNSIGNED_LONGLONG.
Proof. exact difference_witness. Qed.
Print Assumptions C23_difference_refuted.

(** sizeof is signed *)
Theorem C23_sizeof_refuted : exists s around x, front sizeof_source = Ok s /\ occurs s around x /\
  srt_type x = SRT_SUB_EXPR /\ has x DTYPE_INT.
Proof. exact sizeof_witness. Qed.
Print Assumptions C23_sizeof_refuted.

(** C24: the first operand of an assignment, increment or decrement is the address of a name, of `*p` or of a member, that is no array and
    no function.  Missing: a member of a struct that is no lvalue, see below. *)
Theorem C24_modifiable_partial : forall a s around x,
  resolve a = Ok s -> occurs s around x -> modifying x -> modifies_lvalue x.
Proof. exact resolve_modifies. Qed.
Print Assumptions C24_modifiable_partial.
Example C24_case : exists s around x, front (bytes "int main(void){ int a[2]; a[1] = 3; return 0; }") = Ok s /\ occurs s around x /\ modifying x.
Proof.
  destruct (find_node_occurs (is_node SRT_ASSIGN_EXPR) (bytes "int main(void){ int a[2]; a[1] = 3; return 0; }")
    (node SRT_ASSIGN_EXPR DTYPE_INT [address DTYPE_INT (node SRT_INDIR_EXPR DTYPE_INT [node SRT_PADD_EXPR (DTYPE_POINTER DTYPE_INT)
       [address DTYPE_INT (Srt SRT_IDENT_EXPR (Some (DTYPE_ARRAY DTYPE_INT 2)) (SPName (bytes "a")) []);
        Srt SRT_ILITERAL_EXPR (Some DTYPE_INT) (SPInt (mkil IInt 1 0)) []]]);
      Srt SRT_ILITERAL_EXPR (Some DTYPE_INT) (SPInt (mkil IInt 3 0)) []])) as (s & around & F & O); [vm_compute; reflexivity |].
  exists s, around. eexists. split; [exact F |]. split; [exact O |]. now left.
Qed.

(** A member of the result of a call is assigned *)
Theorem C24_call_member_refuted : exists s around x, front call_member_source = Ok s /\ occurs s around x /\
  srt_type x = SRT_ASSIGN_EXPR /\ exists d e m call r, srt_children x = [address d (node SRT_TOMEMBER_EXPR d [address e call; m]); r] /\ srt_type call = SRT_CALL_EXPR.
Proof. exact call_member_witness. Qed.
Print Assumptions C24_call_member_refuted.

(** C25.  Missing: case values are compared before their conversion to the type of the controlling expression, see below. *)
Theorem C25_jumps_partial : forall a s around x,
  resolve a = Ok s -> occurs s around x -> well_placed around x /\ distinct_labels x.
Proof. exact resolve_jumps. Qed.
Print Assumptions C25_jumps_partial.
Example C25_case : exists s, front (bytes "int main(void){ int i; for (i = 0; i < 9; i++) { switch (i) { case 1: break; case 2: continue; default: switch (i) { case 1: break; } } while (i) break; } return 0; }") = Ok s.
Proof. eexists. vm_compute. reflexivity. Qed.

(** Two cases of one value *)
Theorem C25_case_refuted : exists s around x, front case_source = Ok s /\ occurs s around x /\
  exists c b, srt_type x = SRT_SWITCH_STMT /\ srt_children x = [c; b] /\ has c DTYPE_INT /\
  exists v w, cases_of b = [v; w] /\ (v mod 2 ^ 32 = w mod 2 ^ 32).
Proof. exact case_witness. Qed.
Print Assumptions C25_case_refuted.

(** C26: in a typed expression as many assignments, increments and calls happen as the source has, if no left operand of a compound
    assignment has any.  With C23_rules_partial this is about all expressions of accepted programs. *)
Theorem C26_effects_partial : forall E a s E',
  elab E a s E' -> pure_targets a -> effects s = effects_of_source a.
Proof. exact elab_effects_expr. Qed.
Print Assumptions C26_effects_partial.
Example C26_case : exists toks p b, lex_source (bytes "int main(void){ int a[3]; a[1] += 5 * a[0]++; return 0; }") = Ok toks /\
  parse_tokens toks = Ok p /\ In b (ast_nodes p) /\ ast_type b = AST_ADD_ASSIGN_EXPR /\ pure_targets b /\ effects_of_source b = 2%nat.
Proof.
  eexists. eexists. eexists. split; [vm_compute; reflexivity |]. split; [vm_compute; reflexivity |].
  split; [apply (find_some (fun x => if asttype_eq_dec (ast_type x) AST_ADD_ASSIGN_EXPR then true else false)); vm_compute; reflexivity |].
  split; [reflexivity |]. split; [vm_compute; intuition | reflexivity].
Qed.

(** The same of the resolver itself: whatever expression it accepts, in any state whose tables contain well-formed types ([inv]; the first state is one, and the resolver keeps it) *)
Theorem C26_resolver_partial : forall fuel a st s st',
  inv st -> k_expr (resolvers fuel) a st = Ok (Some s, st') -> pure_targets a -> effects s = effects_of_source a.
Proof. exact resolver_effects. Qed.
Print Assumptions C26_resolver_partial.
(** a state where an int [a] is declared, and  a += 5 *)
Definition C26_state : res rst := (do syms <- sym_define_label new_symtab (bytes "a") DTYPE_INT; Ok (set_syms syms new_resolver))%res.
Definition C26_addition : res ast := (do toks <- lex_source (bytes "int a; int main(void){ a += 5; return a += 1; }"); do p <- parse_tokens toks;
  match List.find (fun x => if asttype_eq_dec (ast_type x) AST_ADD_ASSIGN_EXPR then true else false) (ast_nodes p) with Some b => Ok b | None => Err end)%res.
Example C26_resolver_case : exists st a s st', C26_state = Ok st /\ C26_addition = Ok a /\ inv st /\ k_expr (resolvers 50) a st = Ok (Some s, st') /\ pure_targets a /\ effects_of_source a = 1%nat.
Proof.
  do 4 eexists. split; [vm_compute; reflexivity |]. split; [vm_compute; reflexivity |].
  split; [split; [intros sc n y [<- | []] [X | []]; injection X as <- <-; reflexivity | split; [intros sc n y [<- | []] [] | split; reflexivity]] |].
  split; [vm_compute; reflexivity |]. split; [vm_compute; intuition | vm_compute; reflexivity].
Qed.

(** In an accepted program every returned value is what the rules make of a return statement of the source, with as many effects *)
Theorem C26_returned_partial : forall a s around v,
  resolve a = Ok s -> occurs s around (stmt_node SRT_RET_STMT [v]) ->
  exists e p cs, In (Ast AST_RET_STMT p (e :: cs)) (ast_nodes a)
    /\ (exists E c w E' r, elab E e c E' /\ value_of c w /\ assigned_to r w v) /\ (pure_targets e -> effects v = effects_of_source e).
Proof. exact resolve_returns. Qed.
Print Assumptions C26_returned_partial.
Example C26_returned_case : exists toks a s around v, lex_source (bytes "int a; int main(void){ a += 5; return a += 1; }") = Ok toks /\ parse_tokens toks = Ok a /\ resolve a = Ok s
  /\ occurs s around (stmt_node SRT_RET_STMT [v]) /\ effects v = 1%nat.
Proof.
  eexists. eexists. eexists. assert (N : forall s v, In (stmt_node SRT_RET_STMT [v]) (nodes s) -> effects v = 1%nat -> exists around w, occurs s around (stmt_node SRT_RET_STMT [w]) /\ effects w = 1%nat).
  { intros s v I F. apply nodes_occur in I as (around & O). eauto. }
  match goal with |- exists around v, lex_source ?x = Ok ?t /\ parse_tokens ?t = Ok ?a /\ resolve ?a = Ok ?s /\ _ =>
    assert (A1 : lex_source x = Ok t) by (vm_compute; reflexivity); assert (A2 : parse_tokens t = Ok a) by (vm_compute; reflexivity); assert (A3 : resolve a = Ok s) by (vm_compute; reflexivity) end.
  edestruct N as (around & v & O & F); [| | exists around, v; split; [exact A1 |]; split; [exact A2 |]; split; [exact A3 |]; split; [exact O | exact F]].
  - vm_compute. repeat (first [left; reflexivity | right]).
  - vm_compute. reflexivity.
Qed.

(** a[i++] += 5 increments i twice *)
Theorem C26_compound_refuted : source_count AST_POSTINC_EXPR compound_source = Ok 1%nat /\ tree_count SRT_POSTINC_EXPR compound_source = Ok 2%nat.
Proof. exact compound_witness. Qed.
Print Assumptions C26_compound_refuted.

(** C27: an accepted initialiser gives every scalar of the object one value, whatever its nesting *)
Theorem C27_covers_partial : forall E d a s E',
  initializer E d a s E' -> covers d s.
Proof. exact initializer_covers_object. Qed.
Print Assumptions C27_covers_partial.

(** Without inner braces and strings these values are the items in their order and then zeros *)
Theorem C27_order_partial : forall E d p items s E',
  initializer E d (Ast AST_INIT_LIST p items) s E' -> Forall expression_item items ->
  exists vs zs, scalars s = vs ++ zs /\ Forall2 value_for items vs /\ Forall is_zero zs.
Proof. exact flat_initializer. Qed.
Print Assumptions C27_order_partial.
Example C27_case : exists s around x i v, front (bytes "int main(void){ struct { int a[2]; struct { int c; char *d; } b; } x = {1, 2, 3}; return 0; }") = Ok s /\ occurs s around x /\
  srt_children x = [i; v] /\ length (scalars v) = 4%nat.
Proof.
  assert (N : exists x, find_node (is_node SRT_INIT_DECL) (bytes "int main(void){ struct { int a[2]; struct { int c; char *d; } b; } x = {1, 2, 3}; return 0; }") = Some x
    /\ exists i v, srt_children x = [i; v] /\ length (scalars v) = 4%nat).
  { eexists. split; [vm_compute; reflexivity |]. do 2 eexists. split; reflexivity. }
  destruct N as (x & X & i & v & C & L). destruct (find_node_occurs _ _ _ X) as (s & around & F & O). exists s, around, x, i, v. auto.
Qed.

(** In an accepted program every initialised variable, of type [d], is so: all its scalars get a value, by an initialiser of the source *)
Theorem C27_program_partial : forall a s around d n i,
  resolve a = Ok s -> occurs s around (Srt SRT_INIT_DECL None SPNone [Srt SRT_IDENT_DECL (Some d) (SPName n) []; i]) ->
  covers d i /\ exists ia E E', In ia (ast_nodes a) /\ initializer E d ia i E'
    /\ forall p items, ia = Ast AST_INIT_LIST p items -> Forall expression_item items -> exists vs zs, scalars i = vs ++ zs /\ Forall2 value_for items vs /\ Forall is_zero zs.
Proof. exact resolve_initialises. Qed.
Print Assumptions C27_program_partial.
Example C27_program_case : exists toks a s around d n i, lex_source (bytes "int main(void){ struct { int a[2]; struct { int c; char *d; } b; } x = {1, 2, 3}; return 0; }") = Ok toks /\ parse_tokens toks = Ok a /\ resolve a = Ok s
  /\ occurs s around (Srt SRT_INIT_DECL None SPNone [Srt SRT_IDENT_DECL (Some d) (SPName n) []; i]) /\ length (scalars i) = 4%nat.
Proof.
  eexists. eexists. eexists. assert (N : forall s d n i, In (Srt SRT_INIT_DECL None SPNone [Srt SRT_IDENT_DECL (Some d) (SPName n) []; i]) (nodes s) -> length (scalars i) = 4%nat ->
    exists around d n i, occurs s around (Srt SRT_INIT_DECL None SPNone [Srt SRT_IDENT_DECL (Some d) (SPName n) []; i]) /\ length (scalars i) = 4%nat).
  { intros s d n i I F. apply nodes_occur in I as (around & O). eauto 7. }
  match goal with |- exists around d n i, lex_source ?x = Ok ?t /\ parse_tokens ?t = Ok ?a /\ resolve ?a = Ok ?s /\ _ =>
    assert (A1 : lex_source x = Ok t) by (vm_compute; reflexivity); assert (A2 : parse_tokens t = Ok a) by (vm_compute; reflexivity); assert (A3 : resolve a = Ok s) by (vm_compute; reflexivity) end.
  edestruct N as (around & d & n & i & O & F); [| | exists around, d, n, i; split; [exact A1 |]; split; [exact A2 |]; split; [exact A3 |]; split; [exact O | exact F]].
  - vm_compute. repeat (first [left; reflexivity | right]).
  - vm_compute. reflexivity.
Qed.

(** One string initialises two members *)
Theorem C27_string_reused_refuted : exists s around x, front string_source = Ok s /\ occurs s around x /\
  exists i chars lit, srt_type x = SRT_INIT_DECL /\ srt_children x = [i; init_node [init_node [chars]; init_node [lit]]] /\ srt_type chars = SRT_SLITERAL_EXPR /\ srt_type lit = SRT_ADDR_EXPR.
Proof. exact string_witness. Qed.
Print Assumptions C27_string_reused_refuted.

(** A struct defined inside an initialiser changes the number of members that are initialised *)
Theorem C27_tag_refuted : exists s around x, front tag_initializer_source = Ok s /\ occurs s around x /\
  exists n i a b c, srt_type x = SRT_INIT_DECL /\ srt_children x = [i; init_node [init_node [a; b]; init_node [c]]] /\ has i (DTYPE_ARRAY (DTYPE_NSTRUCT n 8 4) 2).
Proof. exact tag_initializer_witness. Qed.
Print Assumptions C27_tag_refuted.

(** The compiler stops on elements of type long that have no initialiser *)
Theorem C27_long_zero_refuted : front long_zero_source = Fatal.
Proof. exact long_zero_witness. Qed.
Print Assumptions C27_long_zero_refuted.

(** An array of strings is rejected *)
Theorem C27_string_rows_refuted : front string_rows_source = Err.
Proof. exact string_rows_witness. Qed.
Print Assumptions C27_string_rows_refuted.

(** C28: sizeof is the size of the type (TypeSpec.sizeof).  Slots have this size: C22_slots_partial *)
Theorem C28_sizeof_partial : forall E p a cs s E',
  elab E (Ast AST_SIZEOF_EXPR p (a :: cs)) s E' ->
  exists i d, s = Srt SRT_ILITERAL_EXPR (Some DTYPE_INT) (SPInt i) [] /\ itype i = IInt /\ sval i = sizeof d
    /\ (ast_type a = AST_TYPE_NAME /\ type_name E a d E' \/ exists x, elab E a x E' /\ has x d).
Proof. exact sizeof_value. Qed.
Print Assumptions C28_sizeof_partial.

(** The same of the resolver itself, in the states of C26_resolver_partial; the type is a complete object type *)
Theorem C28_resolver_partial : forall fuel p a cs st s st',
  inv st -> k_expr (resolvers fuel) (Ast AST_SIZEOF_EXPR p (a :: cs)) st = Ok (Some s, st') ->
  exists i d, s = Srt SRT_ILITERAL_EXPR (Some DTYPE_INT) (SPInt i) [] /\ itype i = IInt /\ sval i = sizeof d /\ ~ incomplete d /\ (forall ps r, d <> DTYPE_FUNCTION ps r)
    /\ (ast_type a = AST_TYPE_NAME /\ type_name (env_of st) a d (env_of st') \/ exists x, elab (env_of st) a x (env_of st') /\ has x d).
Proof. exact resolver_sizeof. Qed.
Print Assumptions C28_resolver_partial.
Definition C28_size : res ast := (do toks <- lex_source (bytes "int a; int main(void){ return sizeof(a); }"); do p <- parse_tokens toks;
  match List.find (fun x => if asttype_eq_dec (ast_type x) AST_SIZEOF_EXPR then true else false) (ast_nodes p) with Some b => Ok b | None => Err end)%res.
Example C28_resolver_case : exists st p a cs s st', C26_state = Ok st /\ C28_size = Ok (Ast AST_SIZEOF_EXPR p (a :: cs)) /\ inv st /\ k_expr (resolvers 50) (Ast AST_SIZEOF_EXPR p (a :: cs)) st = Ok (Some s, st').
Proof.
  do 6 eexists. split; [vm_compute; reflexivity |]. split; [vm_compute; reflexivity |].
  split; [split; [intros sc n y [<- | []] [X | []]; injection X as <- <-; reflexivity | split; [intros sc n y [<- | []] [] | split; reflexivity]] |].
  vm_compute; reflexivity.
Qed.

(** 32 bits of the array bound are kept *)
Theorem C28_array_bound_refuted : exists s around x, front bound_source = Ok s /\ occurs s around x /\ srt_type x = SRT_IDENT_DECL /\ has x (DTYPE_ARRAY DTYPE_CHAR 1).
Proof. exact bound_witness. Qed.
Print Assumptions C28_array_bound_refuted.
