(** Programs and types on which the type rules of the compiler differ from C: C16, C17, C18, C20, C22 *)
From Verif Require Import Base DriverModel DtypeModel SymtabModel SrtModel ResolverModel TypeSpec TypeProofs ScopeSpec ScopeProofs.
Local Open Scope Z_scope.

(** the front end on a source text *)
Definition front (src : list Z) : res srt :=
  do toks <- lex_source src; do a <- parse_tokens toks; resolve a.

(** the struct has a member of type array of functions, which the compiler lets through *)
Definition function_array_source : list Z := bytes "typedef int F(void); struct S { F a[2]; }; int main(void){return 0;}".
Lemma function_array_witness : exists src ms, front src = UB /\ new_unnamed_struct ms = UB
  /\ ms = [(bytes "a", DTYPE_ARRAY (DTYPE_FUNCTION [] DTYPE_INT) 2)].
Proof. exists function_array_source. eexists. split; [vm_compute; reflexivity |]. split; [| reflexivity]. vm_compute. reflexivity. Qed.

(** two struct types of the same tag in different scopes *)
Definition tag_source : list Z := bytes "struct S {int a;}; int main(void){ struct S x; struct S *p; p = &x; { struct S {int a; int b;}; struct S *q; q = p; return q->b; } }".
Lemma equal_tags_witness : exists a b, dtype_equals a b = true /\ dtype_nbytes a <> dtype_nbytes b
  /\ complete a /\ complete b.
Proof.
  exists (DTYPE_NSTRUCT (bytes "S") 4 4), (DTYPE_NSTRUCT (bytes "S") 8 4). split; [reflexivity |]. split; [discriminate |].
  split; constructor; try lia; [now exists 1 | now exists 2].
Qed.
Lemma equal_tags_program : exists s, front tag_source = Ok s.
Proof. eexists. vm_compute. reflexivity. Qed.

Definition struct_assignment_source : list Z := bytes "struct S {int a;}; int main(void){ struct S x; struct S y; x.a = 1; y = x; return y.a; }".
Lemma struct_assignment_witness : exists d, complete d /\ assignable d d /\ dtype_isassignable d d = false /\ front struct_assignment_source = Err.
Proof.
  exists (DTYPE_NSTRUCT (bytes "S") 4 4). split; [constructor; try lia; now exists 1 |].
  split; [right; right; repeat split |]. split; [reflexivity |]. vm_compute. reflexivity.
Qed.

(** int a; long b; *)
Lemma unaligned_slot_witness : exists t0 h t l, allocates t0 h t l /\ t0 <> [] /\ frame_size t0 = 0
  /\ exists s, In s l /\ ~ (alignof (of_type s) | offset s).
Proof.
  eexists [mkscope [] 0], _, _, _. split.
  - eapply allocates_memory with (n := bytes "b") (d := DTYPE_LONG).
    + eapply allocates_memory with (n := bytes "a") (d := DTYPE_INT); [apply allocates_start | constructor | vm_compute; reflexivity | vm_compute; reflexivity | vm_compute; reflexivity].
    + constructor.
    + vm_compute; reflexivity.
    + vm_compute; reflexivity.
    + vm_compute; reflexivity.
  - split; [discriminate |]. split; [reflexivity |]. eexists. split; [left; reflexivity |]. cbn. intros [x Hx]. lia.
Qed.
(** C11 6.7.1p2 allows one storage-class specifier *)
Definition double_typedef_source : list Z := bytes "typedef typedef int T; int main(void){T x; x=3; return x;}".
Lemma double_typedef_witness : exists s, front double_typedef_source = Ok s.
Proof. eexists. vm_compute. reflexivity. Qed.
