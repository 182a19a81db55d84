(** Programs on which the type checker differs from C: C23 - C28 *)
From Verif Require Import Base DriverModel AstModel DtypeModel SymtabModel SrtModel ResolverModel TypeSpec TypeWitness ElabSpec ElabProofs5 ResolverSpec ResolverProofs.
Local Open Scope Z_scope.

(** ** Consequences for the function resolve *)
Lemma resolve_typed a s around x : resolve a = Ok s -> occurs s around x -> node_typed x.
Proof. intros R. apply program_typed with a. now apply resolve_sound. Qed.
Lemma resolve_modifies a s around x : resolve a = Ok s -> occurs s around x -> modifying x -> modifies_lvalue x.
Proof. intros R. apply program_modifies with a. now apply resolve_sound. Qed.
Lemma resolve_jumps a s around x : resolve a = Ok s -> occurs s around x -> well_placed around x /\ distinct_labels x.
Proof. intros R. apply program_jumps with a. now apply resolve_sound. Qed.
Lemma elab_effects_expr E a s E' : elab E a s E' -> pure_targets a -> effects s = effects_of_source a.
Proof. apply elab_effects. Qed.
Lemma initializer_covers_object E d a s E' : initializer E d a s E' -> covers d s.
Proof. apply initializer_covers. Qed.
Lemma sizeof_value E p a cs s E' : elab E (Ast AST_SIZEOF_EXPR p (a :: cs)) s E' ->
  exists i d, s = Srt SRT_ILITERAL_EXPR (Some DTYPE_INT) (SPInt i) [] /\ itype i = IInt /\ sval i = sizeof d
    /\ (ast_type a = AST_TYPE_NAME /\ type_name E a d E' \/ exists x, elab E a x E' /\ has x d).
Proof.
  intros H. remember (Ast AST_SIZEOF_EXPR p (a :: cs)) as w eqn:W. destruct H; try discriminate; injection W; intros; subst.
  all: try solve [match goal with H : In (_, _) _ |- _ => exfalso; cbn in H; repeat (destruct H as [H | H]; [discriminate |]); destruct H end].
  - exists i, d. auto 7.
  - exists i, d. splits; auto. right. eauto.
  - exfalso. intuition discriminate.
Qed.

(** ** Counterexamples *)
Definition find_node (p : srt -> bool) (src : list Z) : option srt :=
  match front src with Ok s => List.find p (nodes s) | _ => None end.
Definition is_node (t : srttype) (s : srt) : bool := if srttype_eq_dec (srt_type s) t then true else false.
Lemma find_node_occurs p src x : find_node p src = Some x -> exists s around, front src = Ok s /\ occurs s around x.
Proof.
  unfold find_node. destruct (front src) as [s | | | |]; try discriminate. intros H. apply find_some in H as (H & _). apply nodes_occur in H as (around & O). eauto.
Qed.
Ltac by_node p src := match goal with
  | |- context [front src] => let x := eval vm_compute in (find_node p src) in
      match x with Some ?n => destruct (find_node_occurs p src n) as (s & around & F & O); [vm_compute; reflexivity |]; exists s, around, n end
  end.

(** the result of `<<` has the type of the promoted left operand in C (6.5.7p3), here int *)
Definition shift_source : list Z := bytes "int main(void){ int x; x = 1 << 2L; return 0; }".
Lemma shift_witness : exists s around x, front shift_source = Ok s /\ occurs s around x /\
  exists one two, x = node SRT_LSHIFT_EXPR DTYPE_LONG [node SRT_CAST_EXPR DTYPE_LONG [one]; two] /\ has one DTYPE_INT.
Proof. by_node (is_node SRT_LSHIFT_EXPR) shift_source. do 2 (split; [assumption |]). do 2 eexists. split; reflexivity. Qed.
(** the difference of two pointers is signed in C (6.5.6p9) *)
Definition difference_source : list Z := bytes "int main(void){ int *p; int *q; long x; x = p - q; return 0; }".
Lemma difference_witness : exists s around x, front difference_source = Ok s /\ occurs s around x /\
  srt_type x = SRT_PDIFF_EXPR /\ has x DTYPE_UNSIGNED_LONGLONG.
Proof. by_node (is_node SRT_PDIFF_EXPR) difference_source. do 2 (split; [assumption |]). split; reflexivity. Qed.
(** sizeof has an unsigned type in C (6.5.3.4p5): here `sizeof(int) - 5` is an int *)
Definition sizeof_source : list Z := bytes "int main(void){ return sizeof(int) - 5 < 0; }".
Lemma sizeof_witness : exists s around x, front sizeof_source = Ok s /\ occurs s around x /\
  srt_type x = SRT_SUB_EXPR /\ has x DTYPE_INT.
Proof. by_node (is_node SRT_SUB_EXPR) sizeof_source. do 2 (split; [assumption |]). split; reflexivity. Qed.

(** the result of a call is no lvalue, and neither is a member of it (6.5.2.3p3) *)
Definition call_member_source : list Z := bytes "struct S {int a;}; struct S f(void); int main(void){ f().a = 1; return 0; }".
Lemma call_member_witness : exists s around x, front call_member_source = Ok s /\ occurs s around x /\
  srt_type x = SRT_ASSIGN_EXPR /\ exists d e m call r, srt_children x = [address d (node SRT_TOMEMBER_EXPR d [address e call; m]); r] /\ srt_type call = SRT_CALL_EXPR.
Proof. by_node (is_node SRT_ASSIGN_EXPR) call_member_source. do 2 (split; [assumption |]). split; [reflexivity |]. do 5 eexists. split; reflexivity. Qed.

(** both values are 1 after the conversion to the type of the controlling expression (6.8.4.2p3, p5) *)
Definition case_source : list Z := bytes "int main(void){ int x; x = 2; switch(x){ case 1: return 1; case 4294967297: return 2; } return 0; }".
Lemma case_witness : exists s around x, front case_source = Ok s /\ occurs s around x /\
  exists c b, srt_type x = SRT_SWITCH_STMT /\ srt_children x = [c; b] /\ has c DTYPE_INT /\
  exists v w, cases_of b = [v; w] /\ (v mod 2 ^ 32 = w mod 2 ^ 32).
Proof.
  by_node (is_node SRT_SWITCH_STMT) case_source. do 2 (split; [assumption |]). do 2 eexists. do 3 (split; [reflexivity |]). exists 1, 4294967297. split; vm_compute; reflexivity.
Qed.

(** the source has one increment, its translation two *)
Definition source_count (t : asttype) (src : list Z) : res nat :=
  do toks <- lex_source src; do a <- parse_tokens toks; Ok (length (List.filter (fun x => if asttype_eq_dec (ast_type x) t then true else false) (ast_nodes a))).
Definition tree_count (t : srttype) (src : list Z) : res nat :=
  do s <- front src; Ok (length (List.filter (is_node t) (nodes s))).
Definition compound_source : list Z := bytes "int main(void){ int a[3]; int i; i = 0; a[i++] += 5; return i; }".
Lemma compound_witness : source_count AST_POSTINC_EXPR compound_source = Ok 1%nat /\ tree_count SRT_POSTINC_EXPR compound_source = Ok 2%nat.
Proof. split; vm_compute; reflexivity. Qed.

(** one item initialises both members; p has no initialiser and should be null *)
Definition string_source : list Z := bytes "int main(void){ struct { char s[3]; char *p; } x = {""ab""}; return 0; }".
Lemma string_witness : exists s around x, front string_source = Ok s /\ occurs s around x /\
  exists i chars lit, srt_type x = SRT_INIT_DECL /\ srt_children x = [i; init_node [init_node [chars]; init_node [lit]]] /\ srt_type chars = SRT_SLITERAL_EXPR /\ srt_type lit = SRT_ADDR_EXPR.
Proof.
  by_node (fun s => is_node SRT_INIT_DECL s && match srt_children s with [i; _] => is_node SRT_IDENT_DECL i | _ => false end)%bool string_source.
  do 2 (split; [assumption |]). do 3 eexists. repeat split.
Qed.
(** the second `a` in `x` is left out: struct S means the new struct while its items are read *)
Definition tag_initializer_source : list Z := bytes "int main(void){ struct S {int a; int b;}; { struct S x[2] = {{sizeof(struct S {int c;})}, {1}}; } return 0; }".
Lemma tag_initializer_witness : exists s around x, front tag_initializer_source = Ok s /\ occurs s around x /\
  exists n i a b c, srt_type x = SRT_INIT_DECL /\ srt_children x = [i; init_node [init_node [a; b]; init_node [c]]] /\ has i (DTYPE_ARRAY (DTYPE_NSTRUCT n 8 4) 2).
Proof.
  by_node (fun s => is_node SRT_INIT_DECL s && match srt_children s with [i; _] => is_node SRT_IDENT_DECL i | _ => false end)%bool tag_initializer_source.
  do 2 (split; [assumption |]). do 5 eexists. repeat split.
Qed.
Definition long_zero_source : list Z := bytes "int main(void){ long a[3] = {1}; return 0; }".
Lemma long_zero_witness : front long_zero_source = Fatal.
Proof. vm_compute. reflexivity. Qed.
Definition string_rows_source : list Z := bytes "int main(void){ char a[2][5] = {""abcd"", ""efgh""}; return 0; }".
Lemma string_rows_witness : front string_rows_source = Err.
Proof. vm_compute. reflexivity. Qed.

(** the bound 2^32 + 1 is taken as 1 *)
Definition bound_source : list Z := bytes "char a[4294967297]; int main(void){ return 0; }".
Lemma bound_witness : exists s around x, front bound_source = Ok s /\ occurs s around x /\ srt_type x = SRT_IDENT_DECL /\ has x (DTYPE_ARRAY DTYPE_CHAR 1).
Proof. by_node (is_node SRT_IDENT_DECL) bound_source. do 2 (split; [assumption |]). repeat split. Qed.
