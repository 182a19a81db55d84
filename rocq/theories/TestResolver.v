(** The resolver unit tests of /repo/tests/resolver, read by tools/gen_tests.py and run on the model.
    These are tests of the model, not properties. *)
From Verif Require Import Base LiteralModel ResolverModel.
Open Scope Z_scope.

Definition ust ms := match new_unnamed_struct ms with Ok d => d | _ => DTYPE_VOID end.
Fixpoint run_ops {A} (l : list (A -> res A)) (t : A) : res A :=
  match l with [] => Ok t | f :: r => do t <- f t; run_ops r t end.
(** symbol and tag table set up by the test, in a scope inside a fresh global scope *)
Definition inner {A} (fresh : list A) (enter : list A -> list A) (dflt : bool) (ops : option (list (list A -> res (list A)))) : res (list A) :=
  match ops with
  | None => Ok (if dflt then enter fresh else fresh)
  | Some ops => do t <- run_ops ops fresh; Ok (t ++ fresh)
  end.
Definition outer {A} (fresh : list A) (ops : option (list (list A -> res (list A)))) : res (list A) :=
  match ops with None => Ok fresh | Some ops => run_ops ops fresh end.
Definition k : knot := resolvers 200.
Definition expr_test a sy tg : rres srt :=
  do sy <- inner new_symtab sym_enter false sy; do tg <- inner new_tagtab tag_enter false tg;
  resolve_expr k a (set_tags tg (set_syms sy new_resolver)).
Definition global_expr_test a sy tg : rres srt :=
  do sy <- outer new_symtab sy; do tg <- outer new_tagtab tg;
  resolve_expr k a (set_tags tg (set_syms sy new_resolver)).
Definition stmt_test a sy ret : rres srt :=
  do sy <- inner new_symtab sym_enter false sy;
  resolve_stmt k a (set_ret ret (set_syms sy new_resolver)).
Definition local_decl_test a sy tg : rres srt :=
  do sy <- inner new_symtab sym_enter true sy; do tg <- inner new_tagtab tag_enter true tg;
  resolve_decl k a (set_scope (Some []) (set_tags tg (set_syms sy new_resolver))).
Definition global_decl_test a sy tg : rres srt :=
  do sy <- outer new_symtab sy; do tg <- outer new_tagtab tg;
  resolve_decl k a (set_scope (Some []) (set_tags tg (set_syms sy new_resolver))).
Definition unit_test a : rres srt := resolve_translation_unit k a new_resolver.
Definition got (r : rres srt) : option srt := match r with Ok (Some s, _) => Some s | _ => None end.
Definition errs (r : rres srt) : bool := match r with Ok (None, _) => true | _ => false end.
Definition tu (r : rres srt) : list srt := match r with Ok (_, s) => r_tu s | _ => [] end.
Definition scope_of (r : rres srt) : option (list srt) := match r with Ok (_, s) => r_scope s | _ => None end.

(** tests/resolver/test_conversion.c test_resolve_int_and_unsigned_int_conv *)
Definition test_resolve_int_and_unsigned_int_conv := expr_test (new_ast AST_ADD_EXPR [(new_identifier_ast AST_IDENT_EXPR [97]); (new_identifier_ast AST_IDENT_EXPR [98])]) (Some [(fun t => sym_define_memory t [97] DTYPE_INT); (fun t => sym_define_memory t [98] DTYPE_UNSIGNED_INT)]) None.
Example test_resolve_int_and_unsigned_int_conv_ok : got test_resolve_int_and_unsigned_int_conv = Some (new_dtyped_srt SRT_ADD_EXPR DTYPE_UNSIGNED_INT [(new_dtyped_srt SRT_CAST_EXPR DTYPE_UNSIGNED_INT [(new_identifier_srt SRT_IDENT_EXPR DTYPE_INT [97])]); (new_identifier_srt SRT_IDENT_EXPR DTYPE_UNSIGNED_INT [98])]). Proof. vm_compute. reflexivity. Qed.
(** tests/resolver/test_conversion.c test_resolve_int_and_long_conv *)
Definition test_resolve_int_and_long_conv := expr_test (new_ast AST_SUB_EXPR [(new_identifier_ast AST_IDENT_EXPR [97]); (new_identifier_ast AST_IDENT_EXPR [98])]) (Some [(fun t => sym_define_memory t [97] DTYPE_INT); (fun t => sym_define_memory t [98] DTYPE_LONG)]) None.
Example test_resolve_int_and_long_conv_ok : got test_resolve_int_and_long_conv = Some (new_dtyped_srt SRT_SUB_EXPR DTYPE_LONG [(new_dtyped_srt SRT_CAST_EXPR DTYPE_LONG [(new_identifier_srt SRT_IDENT_EXPR DTYPE_INT [97])]); (new_identifier_srt SRT_IDENT_EXPR DTYPE_LONG [98])]). Proof. vm_compute. reflexivity. Qed.
(** tests/resolver/test_conversion.c test_resolve_int_and_unsigned_long_conv *)
Definition test_resolve_int_and_unsigned_long_conv := expr_test (new_ast AST_MUL_EXPR [(new_identifier_ast AST_IDENT_EXPR [97]); (new_identifier_ast AST_IDENT_EXPR [98])]) (Some [(fun t => sym_define_memory t [97] DTYPE_INT); (fun t => sym_define_memory t [98] DTYPE_UNSIGNED_LONG)]) None.
Example test_resolve_int_and_unsigned_long_conv_ok : got test_resolve_int_and_unsigned_long_conv = Some (new_dtyped_srt SRT_MUL_EXPR DTYPE_UNSIGNED_LONG [(new_dtyped_srt SRT_CAST_EXPR DTYPE_UNSIGNED_LONG [(new_identifier_srt SRT_IDENT_EXPR DTYPE_INT [97])]); (new_identifier_srt SRT_IDENT_EXPR DTYPE_UNSIGNED_LONG [98])]). Proof. vm_compute. reflexivity. Qed.
(** tests/resolver/test_conversion.c test_resolve_unsigned_int_and_int_conv *)
Definition test_resolve_unsigned_int_and_int_conv := expr_test (new_ast AST_DIV_EXPR [(new_identifier_ast AST_IDENT_EXPR [97]); (new_identifier_ast AST_IDENT_EXPR [98])]) (Some [(fun t => sym_define_memory t [97] DTYPE_UNSIGNED_INT); (fun t => sym_define_memory t [98] DTYPE_INT)]) None.
Example test_resolve_unsigned_int_and_int_conv_ok : got test_resolve_unsigned_int_and_int_conv = Some (new_dtyped_srt SRT_DIV_EXPR DTYPE_UNSIGNED_INT [(new_identifier_srt SRT_IDENT_EXPR DTYPE_UNSIGNED_INT [97]); (new_dtyped_srt SRT_CAST_EXPR DTYPE_UNSIGNED_INT [(new_identifier_srt SRT_IDENT_EXPR DTYPE_INT [98])])]). Proof. vm_compute. reflexivity. Qed.
(** tests/resolver/test_conversion.c test_resolve_unsigned_int_and_long_conv *)
Definition test_resolve_unsigned_int_and_long_conv := expr_test (new_ast AST_MOD_EXPR [(new_identifier_ast AST_IDENT_EXPR [97]); (new_identifier_ast AST_IDENT_EXPR [98])]) (Some [(fun t => sym_define_memory t [97] DTYPE_UNSIGNED_INT); (fun t => sym_define_memory t [98] DTYPE_LONG)]) None.
Example test_resolve_unsigned_int_and_long_conv_ok : got test_resolve_unsigned_int_and_long_conv = Some (new_dtyped_srt SRT_MOD_EXPR DTYPE_LONG [(new_dtyped_srt SRT_CAST_EXPR DTYPE_LONG [(new_identifier_srt SRT_IDENT_EXPR DTYPE_UNSIGNED_INT [97])]); (new_identifier_srt SRT_IDENT_EXPR DTYPE_LONG [98])]). Proof. vm_compute. reflexivity. Qed.
(** tests/resolver/test_conversion.c test_resolve_unsigned_int_and_unsigned_long_conv *)
Definition test_resolve_unsigned_int_and_unsigned_long_conv := expr_test (new_ast AST_MOD_EXPR [(new_identifier_ast AST_IDENT_EXPR [97]); (new_identifier_ast AST_IDENT_EXPR [98])]) (Some [(fun t => sym_define_memory t [97] DTYPE_UNSIGNED_INT); (fun t => sym_define_memory t [98] DTYPE_UNSIGNED_LONG)]) None.
Example test_resolve_unsigned_int_and_unsigned_long_conv_ok : got test_resolve_unsigned_int_and_unsigned_long_conv = Some (new_dtyped_srt SRT_MOD_EXPR DTYPE_UNSIGNED_LONG [(new_dtyped_srt SRT_CAST_EXPR DTYPE_UNSIGNED_LONG [(new_identifier_srt SRT_IDENT_EXPR DTYPE_UNSIGNED_INT [97])]); (new_identifier_srt SRT_IDENT_EXPR DTYPE_UNSIGNED_LONG [98])]). Proof. vm_compute. reflexivity. Qed.
(** tests/resolver/test_conversion.c test_resolve_long_and_int_conv *)
Definition test_resolve_long_and_int_conv := expr_test (new_ast AST_ADD_EXPR [(new_identifier_ast AST_IDENT_EXPR [97]); (new_identifier_ast AST_IDENT_EXPR [98])]) (Some [(fun t => sym_define_memory t [97] DTYPE_LONG); (fun t => sym_define_memory t [98] DTYPE_INT)]) None.
Example test_resolve_long_and_int_conv_ok : got test_resolve_long_and_int_conv = Some (new_dtyped_srt SRT_ADD_EXPR DTYPE_LONG [(new_identifier_srt SRT_IDENT_EXPR DTYPE_LONG [97]); (new_dtyped_srt SRT_CAST_EXPR DTYPE_LONG [(new_identifier_srt SRT_IDENT_EXPR DTYPE_INT [98])])]). Proof. vm_compute. reflexivity. Qed.
(** tests/resolver/test_conversion.c test_resolve_long_and_unsigned_int_conv *)
Definition test_resolve_long_and_unsigned_int_conv := expr_test (new_ast AST_SUB_EXPR [(new_identifier_ast AST_IDENT_EXPR [97]); (new_identifier_ast AST_IDENT_EXPR [98])]) (Some [(fun t => sym_define_memory t [97] DTYPE_LONG); (fun t => sym_define_memory t [98] DTYPE_UNSIGNED_INT)]) None.
Example test_resolve_long_and_unsigned_int_conv_ok : got test_resolve_long_and_unsigned_int_conv = Some (new_dtyped_srt SRT_SUB_EXPR DTYPE_LONG [(new_identifier_srt SRT_IDENT_EXPR DTYPE_LONG [97]); (new_dtyped_srt SRT_CAST_EXPR DTYPE_LONG [(new_identifier_srt SRT_IDENT_EXPR DTYPE_UNSIGNED_INT [98])])]). Proof. vm_compute. reflexivity. Qed.
(** tests/resolver/test_conversion.c test_resolve_long_and_unsigned_long_conv *)
Definition test_resolve_long_and_unsigned_long_conv := expr_test (new_ast AST_MUL_EXPR [(new_identifier_ast AST_IDENT_EXPR [97]); (new_identifier_ast AST_IDENT_EXPR [98])]) (Some [(fun t => sym_define_memory t [97] DTYPE_LONG); (fun t => sym_define_memory t [98] DTYPE_UNSIGNED_LONG)]) None.
Example test_resolve_long_and_unsigned_long_conv_ok : got test_resolve_long_and_unsigned_long_conv = Some (new_dtyped_srt SRT_MUL_EXPR DTYPE_UNSIGNED_LONG [(new_dtyped_srt SRT_CAST_EXPR DTYPE_UNSIGNED_LONG [(new_identifier_srt SRT_IDENT_EXPR DTYPE_LONG [97])]); (new_identifier_srt SRT_IDENT_EXPR DTYPE_UNSIGNED_LONG [98])]). Proof. vm_compute. reflexivity. Qed.
(** tests/resolver/test_conversion.c test_resolve_long_and_long_long_conv *)
Definition test_resolve_long_and_long_long_conv := expr_test (new_ast AST_DIV_EXPR [(new_identifier_ast AST_IDENT_EXPR [97]); (new_identifier_ast AST_IDENT_EXPR [98])]) (Some [(fun t => sym_define_memory t [97] DTYPE_LONG); (fun t => sym_define_memory t [98] DTYPE_LONGLONG)]) None.
Example test_resolve_long_and_long_long_conv_ok : got test_resolve_long_and_long_long_conv = Some (new_dtyped_srt SRT_DIV_EXPR DTYPE_LONGLONG [(new_dtyped_srt SRT_CAST_EXPR DTYPE_LONGLONG [(new_identifier_srt SRT_IDENT_EXPR DTYPE_LONG [97])]); (new_identifier_srt SRT_IDENT_EXPR DTYPE_LONGLONG [98])]). Proof. vm_compute. reflexivity. Qed.
(** tests/resolver/test_conversion.c test_resolve_long_and_unsigned_long_long_conv *)
Definition test_resolve_long_and_unsigned_long_long_conv := expr_test (new_ast AST_MOD_EXPR [(new_identifier_ast AST_IDENT_EXPR [97]); (new_identifier_ast AST_IDENT_EXPR [98])]) (Some [(fun t => sym_define_memory t [97] DTYPE_LONG); (fun t => sym_define_memory t [98] DTYPE_UNSIGNED_LONGLONG)]) None.
Example test_resolve_long_and_unsigned_long_long_conv_ok : got test_resolve_long_and_unsigned_long_long_conv = Some (new_dtyped_srt SRT_MOD_EXPR DTYPE_UNSIGNED_LONGLONG [(new_dtyped_srt SRT_CAST_EXPR DTYPE_UNSIGNED_LONGLONG [(new_identifier_srt SRT_IDENT_EXPR DTYPE_LONG [97])]); (new_identifier_srt SRT_IDENT_EXPR DTYPE_UNSIGNED_LONGLONG [98])]). Proof. vm_compute. reflexivity. Qed.
(** tests/resolver/test_conversion.c test_resolve_unsigned_long_and_int_conv *)
Definition test_resolve_unsigned_long_and_int_conv := expr_test (new_ast AST_ADD_EXPR [(new_identifier_ast AST_IDENT_EXPR [97]); (new_identifier_ast AST_IDENT_EXPR [98])]) (Some [(fun t => sym_define_memory t [97] DTYPE_UNSIGNED_LONG); (fun t => sym_define_memory t [98] DTYPE_INT)]) None.
Example test_resolve_unsigned_long_and_int_conv_ok : got test_resolve_unsigned_long_and_int_conv = Some (new_dtyped_srt SRT_ADD_EXPR DTYPE_UNSIGNED_LONG [(new_identifier_srt SRT_IDENT_EXPR DTYPE_UNSIGNED_LONG [97]); (new_dtyped_srt SRT_CAST_EXPR DTYPE_UNSIGNED_LONG [(new_identifier_srt SRT_IDENT_EXPR DTYPE_INT [98])])]). Proof. vm_compute. reflexivity. Qed.
(** tests/resolver/test_conversion.c test_resolve_unsigned_long_and_unsigned_int_conv *)
Definition test_resolve_unsigned_long_and_unsigned_int_conv := expr_test (new_ast AST_SUB_EXPR [(new_identifier_ast AST_IDENT_EXPR [97]); (new_identifier_ast AST_IDENT_EXPR [98])]) (Some [(fun t => sym_define_memory t [97] DTYPE_UNSIGNED_LONG); (fun t => sym_define_memory t [98] DTYPE_UNSIGNED_INT)]) None.
Example test_resolve_unsigned_long_and_unsigned_int_conv_ok : got test_resolve_unsigned_long_and_unsigned_int_conv = Some (new_dtyped_srt SRT_SUB_EXPR DTYPE_UNSIGNED_LONG [(new_identifier_srt SRT_IDENT_EXPR DTYPE_UNSIGNED_LONG [97]); (new_dtyped_srt SRT_CAST_EXPR DTYPE_UNSIGNED_LONG [(new_identifier_srt SRT_IDENT_EXPR DTYPE_UNSIGNED_INT [98])])]). Proof. vm_compute. reflexivity. Qed.
(** tests/resolver/test_conversion.c test_resolve_unsigned_long_and_long_conv *)
Definition test_resolve_unsigned_long_and_long_conv := expr_test (new_ast AST_MUL_EXPR [(new_identifier_ast AST_IDENT_EXPR [97]); (new_identifier_ast AST_IDENT_EXPR [98])]) (Some [(fun t => sym_define_memory t [97] DTYPE_UNSIGNED_LONG); (fun t => sym_define_memory t [98] DTYPE_LONG)]) None.
Example test_resolve_unsigned_long_and_long_conv_ok : got test_resolve_unsigned_long_and_long_conv = Some (new_dtyped_srt SRT_MUL_EXPR DTYPE_UNSIGNED_LONG [(new_identifier_srt SRT_IDENT_EXPR DTYPE_UNSIGNED_LONG [97]); (new_dtyped_srt SRT_CAST_EXPR DTYPE_UNSIGNED_LONG [(new_identifier_srt SRT_IDENT_EXPR DTYPE_LONG [98])])]). Proof. vm_compute. reflexivity. Qed.
(** tests/resolver/test_conversion.c test_resolve_unsigned_long_and_long_long_conv *)
Definition test_resolve_unsigned_long_and_long_long_conv := expr_test (new_ast AST_DIV_EXPR [(new_identifier_ast AST_IDENT_EXPR [97]); (new_identifier_ast AST_IDENT_EXPR [98])]) (Some [(fun t => sym_define_memory t [97] DTYPE_UNSIGNED_LONG); (fun t => sym_define_memory t [98] DTYPE_LONGLONG)]) None.
Example test_resolve_unsigned_long_and_long_long_conv_ok : got test_resolve_unsigned_long_and_long_long_conv = Some (new_dtyped_srt SRT_DIV_EXPR DTYPE_UNSIGNED_LONGLONG [(new_dtyped_srt SRT_CAST_EXPR DTYPE_UNSIGNED_LONGLONG [(new_identifier_srt SRT_IDENT_EXPR DTYPE_UNSIGNED_LONG [97])]); (new_dtyped_srt SRT_CAST_EXPR DTYPE_UNSIGNED_LONGLONG [(new_identifier_srt SRT_IDENT_EXPR DTYPE_LONGLONG [98])])]). Proof. vm_compute. reflexivity. Qed.
(** tests/resolver/test_conversion.c test_resolve_unsigned_long_and_unsigned_long_long_conv *)
Definition test_resolve_unsigned_long_and_unsigned_long_long_conv := expr_test (new_ast AST_MOD_EXPR [(new_identifier_ast AST_IDENT_EXPR [97]); (new_identifier_ast AST_IDENT_EXPR [98])]) (Some [(fun t => sym_define_memory t [97] DTYPE_UNSIGNED_LONG); (fun t => sym_define_memory t [98] DTYPE_UNSIGNED_LONGLONG)]) None.
Example test_resolve_unsigned_long_and_unsigned_long_long_conv_ok : got test_resolve_unsigned_long_and_unsigned_long_long_conv = Some (new_dtyped_srt SRT_MOD_EXPR DTYPE_UNSIGNED_LONGLONG [(new_dtyped_srt SRT_CAST_EXPR DTYPE_UNSIGNED_LONGLONG [(new_identifier_srt SRT_IDENT_EXPR DTYPE_UNSIGNED_LONG [97])]); (new_identifier_srt SRT_IDENT_EXPR DTYPE_UNSIGNED_LONGLONG [98])]). Proof. vm_compute. reflexivity. Qed.
(** tests/resolver/test_conversion.c test_resolve_long_long_and_unsigned_long_conv *)
Definition test_resolve_long_long_and_unsigned_long_conv := expr_test (new_ast AST_EQUAL_EXPR [(new_identifier_ast AST_IDENT_EXPR [97]); (new_identifier_ast AST_IDENT_EXPR [98])]) (Some [(fun t => sym_define_memory t [97] DTYPE_LONGLONG); (fun t => sym_define_memory t [98] DTYPE_UNSIGNED_LONG)]) None.
Example test_resolve_long_long_and_unsigned_long_conv_ok : got test_resolve_long_long_and_unsigned_long_conv = Some (new_dtyped_srt SRT_EQUAL_EXPR DTYPE_INT [(new_dtyped_srt SRT_CAST_EXPR DTYPE_UNSIGNED_LONGLONG [(new_identifier_srt SRT_IDENT_EXPR DTYPE_LONGLONG [97])]); (new_dtyped_srt SRT_CAST_EXPR DTYPE_UNSIGNED_LONGLONG [(new_identifier_srt SRT_IDENT_EXPR DTYPE_UNSIGNED_LONG [98])])]). Proof. vm_compute. reflexivity. Qed.
(** tests/resolver/test_conversion.c test_resolve_long_long_and_unsigned_long_long_conv *)
Definition test_resolve_long_long_and_unsigned_long_long_conv := expr_test (new_ast AST_EQUAL_EXPR [(new_identifier_ast AST_IDENT_EXPR [97]); (new_identifier_ast AST_IDENT_EXPR [98])]) (Some [(fun t => sym_define_memory t [97] DTYPE_LONGLONG); (fun t => sym_define_memory t [98] DTYPE_UNSIGNED_LONGLONG)]) None.
Example test_resolve_long_long_and_unsigned_long_long_conv_ok : got test_resolve_long_long_and_unsigned_long_long_conv = Some (new_dtyped_srt SRT_EQUAL_EXPR DTYPE_INT [(new_dtyped_srt SRT_CAST_EXPR DTYPE_UNSIGNED_LONGLONG [(new_identifier_srt SRT_IDENT_EXPR DTYPE_LONGLONG [97])]); (new_identifier_srt SRT_IDENT_EXPR DTYPE_UNSIGNED_LONGLONG [98])]). Proof. vm_compute. reflexivity. Qed.
(** tests/resolver/test_conversion.c test_resolve_unsigned_long_long_and_long_conv *)
Definition test_resolve_unsigned_long_long_and_long_conv := expr_test (new_ast AST_NEQUAL_EXPR [(new_identifier_ast AST_IDENT_EXPR [97]); (new_identifier_ast AST_IDENT_EXPR [98])]) (Some [(fun t => sym_define_memory t [97] DTYPE_UNSIGNED_LONGLONG); (fun t => sym_define_memory t [98] DTYPE_LONG)]) None.
Example test_resolve_unsigned_long_long_and_long_conv_ok : got test_resolve_unsigned_long_long_and_long_conv = Some (new_dtyped_srt SRT_NEQUAL_EXPR DTYPE_INT [(new_identifier_srt SRT_IDENT_EXPR DTYPE_UNSIGNED_LONGLONG [97]); (new_dtyped_srt SRT_CAST_EXPR DTYPE_UNSIGNED_LONGLONG [(new_identifier_srt SRT_IDENT_EXPR DTYPE_LONG [98])])]). Proof. vm_compute. reflexivity. Qed.
(** tests/resolver/test_conversion.c test_resolve_unsigned_long_long_and_unsigned_long_conv *)
Definition test_resolve_unsigned_long_long_and_unsigned_long_conv := expr_test (new_ast AST_NEQUAL_EXPR [(new_identifier_ast AST_IDENT_EXPR [97]); (new_identifier_ast AST_IDENT_EXPR [98])]) (Some [(fun t => sym_define_memory t [97] DTYPE_UNSIGNED_LONGLONG); (fun t => sym_define_memory t [98] DTYPE_UNSIGNED_LONG)]) None.
Example test_resolve_unsigned_long_long_and_unsigned_long_conv_ok : got test_resolve_unsigned_long_long_and_unsigned_long_conv = Some (new_dtyped_srt SRT_NEQUAL_EXPR DTYPE_INT [(new_identifier_srt SRT_IDENT_EXPR DTYPE_UNSIGNED_LONGLONG [97]); (new_dtyped_srt SRT_CAST_EXPR DTYPE_UNSIGNED_LONGLONG [(new_identifier_srt SRT_IDENT_EXPR DTYPE_UNSIGNED_LONG [98])])]). Proof. vm_compute. reflexivity. Qed.
(** tests/resolver/test_declaration.c test_resolve_char_decl *)
Definition test_resolve_char_decl := local_decl_test (new_ast AST_DECL [(new_ast AST_DECL_SPECS [(new_ast AST_TYPE_CHAR [])]); (new_ast AST_INIT_DECLOR_LIST [(new_ast AST_INIT_DECLOR [(new_identifier_ast AST_IDENT_DECLOR [99])])])]) None None.
Example test_resolve_char_decl_ok : got test_resolve_char_decl = Some (new_srt SRT_DECL_LIST [(new_srt SRT_INIT_DECL [(new_identifier_srt SRT_IDENT_DECL DTYPE_CHAR [99])])]). Proof. vm_compute. reflexivity. Qed.
(** tests/resolver/test_declaration.c test_resolve_char_decl_21 *)
Definition test_resolve_char_decl_21 := global_decl_test (new_ast AST_DECL [(new_ast AST_DECL_SPECS [(new_ast AST_TYPE_CHAR [])]); (new_ast AST_INIT_DECLOR_LIST [(new_ast AST_INIT_DECLOR [(new_identifier_ast AST_IDENT_DECLOR [99])])])]) None None.
Example test_resolve_char_decl_21_ok : got test_resolve_char_decl_21 = Some (new_srt SRT_DECL_LIST [(new_srt SRT_INIT_DECL [(new_identifier_srt SRT_IDENT_DECL DTYPE_CHAR [99])])]). Proof. vm_compute. reflexivity. Qed.
(** tests/resolver/test_declaration.c test_resolve_int_decl *)
Definition test_resolve_int_decl := local_decl_test (new_ast AST_DECL [(new_ast AST_DECL_SPECS [(new_ast AST_TYPE_INT [])]); (new_ast AST_INIT_DECLOR_LIST [(new_ast AST_INIT_DECLOR [(new_identifier_ast AST_IDENT_DECLOR [105])])])]) None None.
Example test_resolve_int_decl_ok : got test_resolve_int_decl = Some (new_srt SRT_DECL_LIST [(new_srt SRT_INIT_DECL [(new_identifier_srt SRT_IDENT_DECL DTYPE_INT [105])])]). Proof. vm_compute. reflexivity. Qed.
(** tests/resolver/test_declaration.c test_resolve_int_decl_23 *)
Definition test_resolve_int_decl_23 := global_decl_test (new_ast AST_DECL [(new_ast AST_DECL_SPECS [(new_ast AST_TYPE_INT [])]); (new_ast AST_INIT_DECLOR_LIST [(new_ast AST_INIT_DECLOR [(new_identifier_ast AST_IDENT_DECLOR [105])])])]) None None.
Example test_resolve_int_decl_23_ok : got test_resolve_int_decl_23 = Some (new_srt SRT_DECL_LIST [(new_srt SRT_INIT_DECL [(new_identifier_srt SRT_IDENT_DECL DTYPE_INT [105])])]). Proof. vm_compute. reflexivity. Qed.
(** tests/resolver/test_declaration.c test_resolve_unsigned_int_decl *)
Definition test_resolve_unsigned_int_decl := local_decl_test (new_ast AST_DECL [(new_ast AST_DECL_SPECS [(new_ast AST_TYPE_UNSIGNED []); (new_ast AST_TYPE_INT [])]); (new_ast AST_INIT_DECLOR_LIST [(new_ast AST_INIT_DECLOR [(new_identifier_ast AST_IDENT_DECLOR [117])])])]) None None.
Example test_resolve_unsigned_int_decl_ok : got test_resolve_unsigned_int_decl = Some (new_srt SRT_DECL_LIST [(new_srt SRT_INIT_DECL [(new_identifier_srt SRT_IDENT_DECL DTYPE_UNSIGNED_INT [117])])]). Proof. vm_compute. reflexivity. Qed.
(** tests/resolver/test_declaration.c test_resolve_unsigned_int_decl_25 *)
Definition test_resolve_unsigned_int_decl_25 := global_decl_test (new_ast AST_DECL [(new_ast AST_DECL_SPECS [(new_ast AST_TYPE_UNSIGNED []); (new_ast AST_TYPE_INT [])]); (new_ast AST_INIT_DECLOR_LIST [(new_ast AST_INIT_DECLOR [(new_identifier_ast AST_IDENT_DECLOR [117])])])]) None None.
Example test_resolve_unsigned_int_decl_25_ok : got test_resolve_unsigned_int_decl_25 = Some (new_srt SRT_DECL_LIST [(new_srt SRT_INIT_DECL [(new_identifier_srt SRT_IDENT_DECL DTYPE_UNSIGNED_INT [117])])]). Proof. vm_compute. reflexivity. Qed.
(** tests/resolver/test_declaration.c test_resolve_long_decl *)
Definition test_resolve_long_decl := local_decl_test (new_ast AST_DECL [(new_ast AST_DECL_SPECS [(new_ast AST_TYPE_LONG [])]); (new_ast AST_INIT_DECLOR_LIST [(new_ast AST_INIT_DECLOR [(new_identifier_ast AST_IDENT_DECLOR [108])])])]) None None.
Example test_resolve_long_decl_ok : got test_resolve_long_decl = Some (new_srt SRT_DECL_LIST [(new_srt SRT_INIT_DECL [(new_identifier_srt SRT_IDENT_DECL DTYPE_LONG [108])])]). Proof. vm_compute. reflexivity. Qed.
(** tests/resolver/test_declaration.c test_resolve_long_decl_27 *)
Definition test_resolve_long_decl_27 := global_decl_test (new_ast AST_DECL [(new_ast AST_DECL_SPECS [(new_ast AST_TYPE_LONG [])]); (new_ast AST_INIT_DECLOR_LIST [(new_ast AST_INIT_DECLOR [(new_identifier_ast AST_IDENT_DECLOR [108])])])]) None None.
Example test_resolve_long_decl_27_ok : got test_resolve_long_decl_27 = Some (new_srt SRT_DECL_LIST [(new_srt SRT_INIT_DECL [(new_identifier_srt SRT_IDENT_DECL DTYPE_LONG [108])])]). Proof. vm_compute. reflexivity. Qed.
(** tests/resolver/test_declaration.c test_resolve_unsigned_long_decl *)
Definition test_resolve_unsigned_long_decl := local_decl_test (new_ast AST_DECL [(new_ast AST_DECL_SPECS [(new_ast AST_TYPE_UNSIGNED []); (new_ast AST_TYPE_LONG [])]); (new_ast AST_INIT_DECLOR_LIST [(new_ast AST_INIT_DECLOR [(new_identifier_ast AST_IDENT_DECLOR [117; 108])])])]) None None.
Example test_resolve_unsigned_long_decl_ok : got test_resolve_unsigned_long_decl = Some (new_srt SRT_DECL_LIST [(new_srt SRT_INIT_DECL [(new_identifier_srt SRT_IDENT_DECL DTYPE_UNSIGNED_LONG [117; 108])])]). Proof. vm_compute. reflexivity. Qed.
(** tests/resolver/test_declaration.c test_resolve_unsigned_long_decl_29 *)
Definition test_resolve_unsigned_long_decl_29 := global_decl_test (new_ast AST_DECL [(new_ast AST_DECL_SPECS [(new_ast AST_TYPE_UNSIGNED []); (new_ast AST_TYPE_LONG [])]); (new_ast AST_INIT_DECLOR_LIST [(new_ast AST_INIT_DECLOR [(new_identifier_ast AST_IDENT_DECLOR [117; 108])])])]) None None.
Example test_resolve_unsigned_long_decl_29_ok : got test_resolve_unsigned_long_decl_29 = Some (new_srt SRT_DECL_LIST [(new_srt SRT_INIT_DECL [(new_identifier_srt SRT_IDENT_DECL DTYPE_UNSIGNED_LONG [117; 108])])]). Proof. vm_compute. reflexivity. Qed.
(** tests/resolver/test_declaration.c test_resolve_long_long_decl *)
Definition test_resolve_long_long_decl := local_decl_test (new_ast AST_DECL [(new_ast AST_DECL_SPECS [(new_ast AST_TYPE_LONG []); (new_ast AST_TYPE_LONG [])]); (new_ast AST_INIT_DECLOR_LIST [(new_ast AST_INIT_DECLOR [(new_identifier_ast AST_IDENT_DECLOR [108; 108])])])]) None None.
Example test_resolve_long_long_decl_ok : got test_resolve_long_long_decl = Some (new_srt SRT_DECL_LIST [(new_srt SRT_INIT_DECL [(new_identifier_srt SRT_IDENT_DECL DTYPE_LONGLONG [108; 108])])]). Proof. vm_compute. reflexivity. Qed.
(** tests/resolver/test_declaration.c test_resolve_long_long_decl_31 *)
Definition test_resolve_long_long_decl_31 := global_decl_test (new_ast AST_DECL [(new_ast AST_DECL_SPECS [(new_ast AST_TYPE_LONG []); (new_ast AST_TYPE_LONG [])]); (new_ast AST_INIT_DECLOR_LIST [(new_ast AST_INIT_DECLOR [(new_identifier_ast AST_IDENT_DECLOR [108; 108])])])]) None None.
Example test_resolve_long_long_decl_31_ok : got test_resolve_long_long_decl_31 = Some (new_srt SRT_DECL_LIST [(new_srt SRT_INIT_DECL [(new_identifier_srt SRT_IDENT_DECL DTYPE_LONGLONG [108; 108])])]). Proof. vm_compute. reflexivity. Qed.
(** tests/resolver/test_declaration.c test_resolve_unsigned_long_long_decl *)
Definition test_resolve_unsigned_long_long_decl := local_decl_test (new_ast AST_DECL [(new_ast AST_DECL_SPECS [(new_ast AST_TYPE_UNSIGNED []); (new_ast AST_TYPE_LONG []); (new_ast AST_TYPE_LONG [])]); (new_ast AST_INIT_DECLOR_LIST [(new_ast AST_INIT_DECLOR [(new_identifier_ast AST_IDENT_DECLOR [117; 108; 108])])])]) None None.
Example test_resolve_unsigned_long_long_decl_ok : got test_resolve_unsigned_long_long_decl = Some (new_srt SRT_DECL_LIST [(new_srt SRT_INIT_DECL [(new_identifier_srt SRT_IDENT_DECL DTYPE_UNSIGNED_LONGLONG [117; 108; 108])])]). Proof. vm_compute. reflexivity. Qed.
(** tests/resolver/test_declaration.c test_resolve_unsigned_long_long_decl_33 *)
Definition test_resolve_unsigned_long_long_decl_33 := global_decl_test (new_ast AST_DECL [(new_ast AST_DECL_SPECS [(new_ast AST_TYPE_UNSIGNED []); (new_ast AST_TYPE_LONG []); (new_ast AST_TYPE_LONG [])]); (new_ast AST_INIT_DECLOR_LIST [(new_ast AST_INIT_DECLOR [(new_identifier_ast AST_IDENT_DECLOR [117; 108; 108])])])]) None None.
Example test_resolve_unsigned_long_long_decl_33_ok : got test_resolve_unsigned_long_long_decl_33 = Some (new_srt SRT_DECL_LIST [(new_srt SRT_INIT_DECL [(new_identifier_srt SRT_IDENT_DECL DTYPE_UNSIGNED_LONGLONG [117; 108; 108])])]). Proof. vm_compute. reflexivity. Qed.
(** tests/resolver/test_declaration.c test_resolve_pointer_decl *)
Definition test_resolve_pointer_decl := local_decl_test (new_ast AST_DECL [(new_ast AST_DECL_SPECS [(new_ast AST_TYPE_INT [])]); (new_ast AST_INIT_DECLOR_LIST [(new_ast AST_INIT_DECLOR [(new_ast AST_PTR_DECLOR [(new_identifier_ast AST_IDENT_DECLOR [112])])]); (new_ast AST_INIT_DECLOR [(new_ast AST_PTR_DECLOR [(new_ast AST_PTR_DECLOR [(new_identifier_ast AST_IDENT_DECLOR [113])])])])])]) None None.
Example test_resolve_pointer_decl_ok : got test_resolve_pointer_decl = Some (new_srt SRT_DECL_LIST [(new_srt SRT_INIT_DECL [(new_identifier_srt SRT_IDENT_DECL (DTYPE_POINTER DTYPE_INT) [112])]); (new_srt SRT_INIT_DECL [(new_identifier_srt SRT_IDENT_DECL (DTYPE_POINTER (DTYPE_POINTER DTYPE_INT)) [113])])]). Proof. vm_compute. reflexivity. Qed.
(** tests/resolver/test_declaration.c test_resolve_pointer_decl_35 *)
Definition test_resolve_pointer_decl_35 := global_decl_test (new_ast AST_DECL [(new_ast AST_DECL_SPECS [(new_ast AST_TYPE_INT [])]); (new_ast AST_INIT_DECLOR_LIST [(new_ast AST_INIT_DECLOR [(new_ast AST_PTR_DECLOR [(new_identifier_ast AST_IDENT_DECLOR [112])])]); (new_ast AST_INIT_DECLOR [(new_ast AST_PTR_DECLOR [(new_ast AST_PTR_DECLOR [(new_identifier_ast AST_IDENT_DECLOR [113])])])])])]) None None.
Example test_resolve_pointer_decl_35_ok : got test_resolve_pointer_decl_35 = Some (new_srt SRT_DECL_LIST [(new_srt SRT_INIT_DECL [(new_identifier_srt SRT_IDENT_DECL (DTYPE_POINTER DTYPE_INT) [112])]); (new_srt SRT_INIT_DECL [(new_identifier_srt SRT_IDENT_DECL (DTYPE_POINTER (DTYPE_POINTER DTYPE_INT)) [113])])]). Proof. vm_compute. reflexivity. Qed.
(** tests/resolver/test_declaration.c test_resolve_array_decl *)
Definition test_resolve_array_decl := local_decl_test (new_ast AST_DECL [(new_ast AST_DECL_SPECS [(new_ast AST_TYPE_INT [])]); (new_ast AST_INIT_DECLOR_LIST [(new_ast AST_INIT_DECLOR [(new_ast AST_ARRAY_DECLOR [(new_identifier_ast AST_IDENT_DECLOR [97]); (new_iliteral_ast AST_INT_EXPR (new_signed IInt 5))])]); (new_ast AST_INIT_DECLOR [(new_ast AST_ARRAY_DECLOR [(new_ast AST_PTR_DECLOR [(new_identifier_ast AST_IDENT_DECLOR [98])]); (new_iliteral_ast AST_INT_EXPR (new_signed IInt 8))])]); (new_ast AST_INIT_DECLOR [(new_ast AST_ARRAY_DECLOR [(new_ast AST_ARRAY_DECLOR [(new_identifier_ast AST_IDENT_DECLOR [99]); (new_iliteral_ast AST_INT_EXPR (new_signed IInt 6))]); (new_iliteral_ast AST_INT_EXPR (new_signed IInt 3))])])])]) None None.
Example test_resolve_array_decl_ok : got test_resolve_array_decl = Some (new_srt SRT_DECL_LIST [(new_srt SRT_INIT_DECL [(new_identifier_srt SRT_IDENT_DECL (DTYPE_ARRAY DTYPE_INT 5) [97])]); (new_srt SRT_INIT_DECL [(new_identifier_srt SRT_IDENT_DECL (DTYPE_ARRAY (DTYPE_POINTER DTYPE_INT) 8) [98])]); (new_srt SRT_INIT_DECL [(new_identifier_srt SRT_IDENT_DECL (DTYPE_ARRAY (DTYPE_ARRAY DTYPE_INT 6) 3) [99])])]). Proof. vm_compute. reflexivity. Qed.
(** tests/resolver/test_declaration.c test_resolve_array_decl_37 *)
Definition test_resolve_array_decl_37 := global_decl_test (new_ast AST_DECL [(new_ast AST_DECL_SPECS [(new_ast AST_TYPE_INT [])]); (new_ast AST_INIT_DECLOR_LIST [(new_ast AST_INIT_DECLOR [(new_ast AST_ARRAY_DECLOR [(new_identifier_ast AST_IDENT_DECLOR [97]); (new_iliteral_ast AST_INT_EXPR (new_signed IInt 5))])]); (new_ast AST_INIT_DECLOR [(new_ast AST_ARRAY_DECLOR [(new_ast AST_PTR_DECLOR [(new_identifier_ast AST_IDENT_DECLOR [98])]); (new_iliteral_ast AST_INT_EXPR (new_signed IInt 8))])]); (new_ast AST_INIT_DECLOR [(new_ast AST_ARRAY_DECLOR [(new_ast AST_ARRAY_DECLOR [(new_identifier_ast AST_IDENT_DECLOR [99]); (new_iliteral_ast AST_INT_EXPR (new_signed IInt 6))]); (new_iliteral_ast AST_INT_EXPR (new_signed IInt 3))])])])]) None None.
Example test_resolve_array_decl_37_ok : got test_resolve_array_decl_37 = Some (new_srt SRT_DECL_LIST [(new_srt SRT_INIT_DECL [(new_identifier_srt SRT_IDENT_DECL (DTYPE_ARRAY DTYPE_INT 5) [97])]); (new_srt SRT_INIT_DECL [(new_identifier_srt SRT_IDENT_DECL (DTYPE_ARRAY (DTYPE_POINTER DTYPE_INT) 8) [98])]); (new_srt SRT_INIT_DECL [(new_identifier_srt SRT_IDENT_DECL (DTYPE_ARRAY (DTYPE_ARRAY DTYPE_INT 6) 3) [99])])]). Proof. vm_compute. reflexivity. Qed.
(** tests/resolver/test_declaration.c test_resolve_named_struct_decl *)
Definition test_resolve_named_struct_decl := local_decl_test (new_ast AST_DECL [(new_ast AST_DECL_SPECS [(new_ast AST_TYPE_STRUCT [(new_identifier_ast AST_STRUCT_NAME [83; 116; 114; 117; 99; 116]); (new_ast AST_STRUCT_DECL_LIST [(new_ast AST_STRUCT_DECL [(new_ast AST_SPEC_QUAL_LIST [(new_ast AST_TYPE_INT [])]); (new_ast AST_STRUCT_DECLOR_LIST [(new_identifier_ast AST_IDENT_DECLOR [120]); (new_identifier_ast AST_IDENT_DECLOR [121])])]); (new_ast AST_STRUCT_DECL [(new_ast AST_SPEC_QUAL_LIST [(new_ast AST_TYPE_CHAR [])]); (new_ast AST_STRUCT_DECLOR_LIST [(new_ast AST_ARRAY_DECLOR [(new_identifier_ast AST_IDENT_DECLOR [115]); (new_iliteral_ast AST_INT_EXPR (new_signed IInt 10))])])]); (new_ast AST_STRUCT_DECL [(new_ast AST_SPEC_QUAL_LIST [(new_ast AST_TYPE_STRUCT [(new_identifier_ast AST_STRUCT_NAME [83; 116; 114; 117; 99; 116])])]); (new_ast AST_STRUCT_DECLOR_LIST [(new_ast AST_PTR_DECLOR [(new_identifier_ast AST_IDENT_DECLOR [110; 101; 120; 116])])])])])])]); (new_ast AST_INIT_DECLOR_LIST [(new_ast AST_INIT_DECLOR [(new_ast AST_PTR_DECLOR [(new_identifier_ast AST_IDENT_DECLOR [115; 116; 114; 117; 99; 116; 117; 114; 101])])])])]) None None.
Example test_resolve_named_struct_decl_ok : got test_resolve_named_struct_decl = Some (new_srt SRT_DECL_LIST [(new_srt SRT_INIT_DECL [(new_identifier_srt SRT_IDENT_DECL (DTYPE_POINTER (DTYPE_NSTRUCT [83; 116; 114; 117; 99; 116] 32 8)) [115; 116; 114; 117; 99; 116; 117; 114; 101])])]). Proof. vm_compute. reflexivity. Qed.
Example test_resolve_named_struct_decl_extra : scope_of test_resolve_named_struct_decl = Some (srt_children (new_srt SRT_CMPD_STMT [(new_identifier_srt SRT_TAG_DECL (ust [([120], DTYPE_INT); ([121], DTYPE_INT); ([115], (DTYPE_ARRAY DTYPE_CHAR 10)); ([110; 101; 120; 116], (DTYPE_POINTER (DTYPE_NSTRUCT [83; 116; 114; 117; 99; 116] 0 0)))]) [83; 116; 114; 117; 99; 116])])). Proof. vm_compute. reflexivity. Qed.
(** tests/resolver/test_declaration.c test_resolve_named_struct_decl_39 *)
Definition test_resolve_named_struct_decl_39 := global_decl_test (new_ast AST_DECL [(new_ast AST_DECL_SPECS [(new_ast AST_TYPE_STRUCT [(new_identifier_ast AST_STRUCT_NAME [83; 116; 114; 117; 99; 116]); (new_ast AST_STRUCT_DECL_LIST [(new_ast AST_STRUCT_DECL [(new_ast AST_SPEC_QUAL_LIST [(new_ast AST_TYPE_INT [])]); (new_ast AST_STRUCT_DECLOR_LIST [(new_identifier_ast AST_IDENT_DECLOR [120]); (new_identifier_ast AST_IDENT_DECLOR [121])])]); (new_ast AST_STRUCT_DECL [(new_ast AST_SPEC_QUAL_LIST [(new_ast AST_TYPE_CHAR [])]); (new_ast AST_STRUCT_DECLOR_LIST [(new_ast AST_ARRAY_DECLOR [(new_identifier_ast AST_IDENT_DECLOR [115]); (new_iliteral_ast AST_INT_EXPR (new_signed IInt 10))])])]); (new_ast AST_STRUCT_DECL [(new_ast AST_SPEC_QUAL_LIST [(new_ast AST_TYPE_STRUCT [(new_identifier_ast AST_STRUCT_NAME [83; 116; 114; 117; 99; 116])])]); (new_ast AST_STRUCT_DECLOR_LIST [(new_ast AST_PTR_DECLOR [(new_identifier_ast AST_IDENT_DECLOR [110; 101; 120; 116])])])])])])]); (new_ast AST_INIT_DECLOR_LIST [(new_ast AST_INIT_DECLOR [(new_ast AST_PTR_DECLOR [(new_identifier_ast AST_IDENT_DECLOR [115; 116; 114; 117; 99; 116; 117; 114; 101])])])])]) None None.
Example test_resolve_named_struct_decl_39_ok : got test_resolve_named_struct_decl_39 = Some (new_srt SRT_DECL_LIST [(new_srt SRT_INIT_DECL [(new_identifier_srt SRT_IDENT_DECL (DTYPE_POINTER (DTYPE_NSTRUCT [83; 116; 114; 117; 99; 116] 32 8)) [115; 116; 114; 117; 99; 116; 117; 114; 101])])]). Proof. vm_compute. reflexivity. Qed.
Example test_resolve_named_struct_decl_39_extra : scope_of test_resolve_named_struct_decl_39 = Some (srt_children (new_srt SRT_CMPD_STMT [(new_identifier_srt SRT_TAG_DECL (ust [([120], DTYPE_INT); ([121], DTYPE_INT); ([115], (DTYPE_ARRAY DTYPE_CHAR 10)); ([110; 101; 120; 116], (DTYPE_POINTER (DTYPE_NSTRUCT [83; 116; 114; 117; 99; 116] 0 0)))]) [83; 116; 114; 117; 99; 116])])). Proof. vm_compute. reflexivity. Qed.
(** tests/resolver/test_declaration.c test_resolve_unnamed_struct_decl *)
Definition test_resolve_unnamed_struct_decl := local_decl_test (new_ast AST_DECL [(new_ast AST_DECL_SPECS [(new_ast AST_TYPE_STRUCT [(new_ast AST_STRUCT_DECL_LIST [(new_ast AST_STRUCT_DECL [(new_ast AST_SPEC_QUAL_LIST [(new_ast AST_TYPE_INT [])]); (new_ast AST_STRUCT_DECLOR_LIST [(new_identifier_ast AST_IDENT_DECLOR [109; 101; 109; 98; 101; 114])])])])])]); (new_ast AST_INIT_DECLOR_LIST [(new_ast AST_INIT_DECLOR [(new_identifier_ast AST_IDENT_DECLOR [115; 116; 114; 117; 99; 116; 117; 114; 101])])])]) None None.
Example test_resolve_unnamed_struct_decl_ok : got test_resolve_unnamed_struct_decl = Some (new_srt SRT_DECL_LIST [(new_srt SRT_INIT_DECL [(new_identifier_srt SRT_IDENT_DECL (ust [([109; 101; 109; 98; 101; 114], DTYPE_INT)]) [115; 116; 114; 117; 99; 116; 117; 114; 101])])]). Proof. vm_compute. reflexivity. Qed.
Example test_resolve_unnamed_struct_decl_extra : scope_of test_resolve_unnamed_struct_decl = Some (srt_children (new_srt SRT_CMPD_STMT [])). Proof. vm_compute. reflexivity. Qed.
(** tests/resolver/test_declaration.c test_resolve_unnamed_struct_decl_41 *)
Definition test_resolve_unnamed_struct_decl_41 := global_decl_test (new_ast AST_DECL [(new_ast AST_DECL_SPECS [(new_ast AST_TYPE_STRUCT [(new_ast AST_STRUCT_DECL_LIST [(new_ast AST_STRUCT_DECL [(new_ast AST_SPEC_QUAL_LIST [(new_ast AST_TYPE_INT [])]); (new_ast AST_STRUCT_DECLOR_LIST [(new_identifier_ast AST_IDENT_DECLOR [109; 101; 109; 98; 101; 114])])])])])]); (new_ast AST_INIT_DECLOR_LIST [(new_ast AST_INIT_DECLOR [(new_identifier_ast AST_IDENT_DECLOR [115; 116; 114; 117; 99; 116; 117; 114; 101])])])]) None None.
Example test_resolve_unnamed_struct_decl_41_ok : got test_resolve_unnamed_struct_decl_41 = Some (new_srt SRT_DECL_LIST [(new_srt SRT_INIT_DECL [(new_identifier_srt SRT_IDENT_DECL (ust [([109; 101; 109; 98; 101; 114], DTYPE_INT)]) [115; 116; 114; 117; 99; 116; 117; 114; 101])])]). Proof. vm_compute. reflexivity. Qed.
Example test_resolve_unnamed_struct_decl_41_extra : scope_of test_resolve_unnamed_struct_decl_41 = Some (srt_children (new_srt SRT_CMPD_STMT [])). Proof. vm_compute. reflexivity. Qed.
(** tests/resolver/test_declaration.c test_resolve_nameonly_struct_decl *)
Definition test_resolve_nameonly_struct_decl := local_decl_test (new_ast AST_DECL [(new_ast AST_DECL_SPECS [(new_ast AST_TYPE_STRUCT [(new_identifier_ast AST_STRUCT_NAME [83; 116; 114; 117; 99; 116])])]); (new_ast AST_INIT_DECLOR_LIST [(new_ast AST_INIT_DECLOR [(new_identifier_ast AST_IDENT_DECLOR [115; 116; 114; 117; 99; 116; 117; 114; 101])])])]) None (Some [(fun t => tag_define_struct t [83; 116; 114; 117; 99; 116] [([120], DTYPE_INT)])]).
Example test_resolve_nameonly_struct_decl_ok : got test_resolve_nameonly_struct_decl = Some (new_srt SRT_DECL_LIST [(new_srt SRT_INIT_DECL [(new_identifier_srt SRT_IDENT_DECL (DTYPE_NSTRUCT [83; 116; 114; 117; 99; 116] 4 4) [115; 116; 114; 117; 99; 116; 117; 114; 101])])]). Proof. vm_compute. reflexivity. Qed.
Example test_resolve_nameonly_struct_decl_extra : scope_of test_resolve_nameonly_struct_decl = Some (srt_children (new_srt SRT_CMPD_STMT [])). Proof. vm_compute. reflexivity. Qed.
(** tests/resolver/test_declaration.c test_resolve_nameonly_struct_decl_43 *)
Definition test_resolve_nameonly_struct_decl_43 := global_decl_test (new_ast AST_DECL [(new_ast AST_DECL_SPECS [(new_ast AST_TYPE_STRUCT [(new_identifier_ast AST_STRUCT_NAME [83; 116; 114; 117; 99; 116])])]); (new_ast AST_INIT_DECLOR_LIST [(new_ast AST_INIT_DECLOR [(new_identifier_ast AST_IDENT_DECLOR [115; 116; 114; 117; 99; 116; 117; 114; 101])])])]) None (Some [(fun t => tag_define_struct t [83; 116; 114; 117; 99; 116] [([120], DTYPE_INT)])]).
Example test_resolve_nameonly_struct_decl_43_ok : got test_resolve_nameonly_struct_decl_43 = Some (new_srt SRT_DECL_LIST [(new_srt SRT_INIT_DECL [(new_identifier_srt SRT_IDENT_DECL (DTYPE_NSTRUCT [83; 116; 114; 117; 99; 116] 4 4) [115; 116; 114; 117; 99; 116; 117; 114; 101])])]). Proof. vm_compute. reflexivity. Qed.
Example test_resolve_nameonly_struct_decl_43_extra : scope_of test_resolve_nameonly_struct_decl_43 = Some (srt_children (new_srt SRT_CMPD_STMT [])). Proof. vm_compute. reflexivity. Qed.
(** tests/resolver/test_declaration.c test_resolve_struct_name_decl *)
Definition test_resolve_struct_name_decl := local_decl_test (new_ast AST_DECL [(new_ast AST_DECL_SPECS [(new_ast AST_TYPE_STRUCT [(new_identifier_ast AST_STRUCT_NAME [83; 116; 114; 117; 99; 116]); (new_ast AST_STRUCT_DECL_LIST [(new_ast AST_STRUCT_DECL [(new_ast AST_SPEC_QUAL_LIST [(new_ast AST_TYPE_INT [])]); (new_ast AST_STRUCT_DECLOR_LIST [(new_identifier_ast AST_IDENT_DECLOR [120])])])])])])]) None None.
Example test_resolve_struct_name_decl_ok : got test_resolve_struct_name_decl = Some (new_srt SRT_DECL_LIST []). Proof. vm_compute. reflexivity. Qed.
Example test_resolve_struct_name_decl_extra : scope_of test_resolve_struct_name_decl = Some (srt_children (new_srt SRT_CMPD_STMT [(new_identifier_srt SRT_TAG_DECL (ust [([120], DTYPE_INT)]) [83; 116; 114; 117; 99; 116])])). Proof. vm_compute. reflexivity. Qed.
(** tests/resolver/test_declaration.c test_resolve_struct_name_decl_45 *)
Definition test_resolve_struct_name_decl_45 := global_decl_test (new_ast AST_DECL [(new_ast AST_DECL_SPECS [(new_ast AST_TYPE_STRUCT [(new_identifier_ast AST_STRUCT_NAME [83; 116; 114; 117; 99; 116]); (new_ast AST_STRUCT_DECL_LIST [(new_ast AST_STRUCT_DECL [(new_ast AST_SPEC_QUAL_LIST [(new_ast AST_TYPE_INT [])]); (new_ast AST_STRUCT_DECLOR_LIST [(new_identifier_ast AST_IDENT_DECLOR [120])])])])])])]) None None.
Example test_resolve_struct_name_decl_45_ok : got test_resolve_struct_name_decl_45 = Some (new_srt SRT_DECL_LIST []). Proof. vm_compute. reflexivity. Qed.
Example test_resolve_struct_name_decl_45_extra : scope_of test_resolve_struct_name_decl_45 = Some (srt_children (new_srt SRT_CMPD_STMT [(new_identifier_srt SRT_TAG_DECL (ust [([120], DTYPE_INT)]) [83; 116; 114; 117; 99; 116])])). Proof. vm_compute. reflexivity. Qed.
(** tests/resolver/test_declaration.c test_resolve_named_enum_decl *)
Definition test_resolve_named_enum_decl := local_decl_test (new_ast AST_DECL [(new_ast AST_DECL_SPECS [(new_ast AST_TYPE_ENUM [(new_ast AST_ENUMOR_LIST [(new_ast AST_ENUMOR [(new_identifier_ast AST_ENUM_CONST [80; 76; 85; 83])]); (new_ast AST_ENUMOR [(new_identifier_ast AST_ENUM_CONST [77; 73; 78; 85; 83])])])])]); (new_ast AST_INIT_DECLOR_LIST [(new_ast AST_INIT_DECLOR [(new_identifier_ast AST_IDENT_DECLOR [101; 110; 117; 109; 101; 114; 97; 116; 105; 111; 110])])])]) None None.
Example test_resolve_named_enum_decl_ok : got test_resolve_named_enum_decl = Some (new_srt SRT_DECL_LIST [(new_srt SRT_INIT_DECL [(new_identifier_srt SRT_IDENT_DECL DTYPE_INT [101; 110; 117; 109; 101; 114; 97; 116; 105; 111; 110])])]). Proof. vm_compute. reflexivity. Qed.
(** tests/resolver/test_declaration.c test_resolve_named_enum_decl_47 *)
Definition test_resolve_named_enum_decl_47 := global_decl_test (new_ast AST_DECL [(new_ast AST_DECL_SPECS [(new_ast AST_TYPE_ENUM [(new_ast AST_ENUMOR_LIST [(new_ast AST_ENUMOR [(new_identifier_ast AST_ENUM_CONST [80; 76; 85; 83])]); (new_ast AST_ENUMOR [(new_identifier_ast AST_ENUM_CONST [77; 73; 78; 85; 83])])])])]); (new_ast AST_INIT_DECLOR_LIST [(new_ast AST_INIT_DECLOR [(new_identifier_ast AST_IDENT_DECLOR [101; 110; 117; 109; 101; 114; 97; 116; 105; 111; 110])])])]) None None.
Example test_resolve_named_enum_decl_47_ok : got test_resolve_named_enum_decl_47 = Some (new_srt SRT_DECL_LIST [(new_srt SRT_INIT_DECL [(new_identifier_srt SRT_IDENT_DECL DTYPE_INT [101; 110; 117; 109; 101; 114; 97; 116; 105; 111; 110])])]). Proof. vm_compute. reflexivity. Qed.
(** tests/resolver/test_declaration.c test_resolve_unnamed_enum_decl *)
Definition test_resolve_unnamed_enum_decl := local_decl_test (new_ast AST_DECL [(new_ast AST_DECL_SPECS [(new_ast AST_TYPE_ENUM [(new_ast AST_ENUMOR_LIST [(new_ast AST_ENUMOR [(new_identifier_ast AST_ENUM_CONST [70; 73; 82; 83; 84])]); (new_ast AST_ENUMOR [(new_identifier_ast AST_ENUM_CONST [83; 69; 67; 79; 78; 68])]); (new_ast AST_ENUMOR [(new_identifier_ast AST_ENUM_CONST [84; 72; 73; 82; 68]); (new_iliteral_ast AST_INT_EXPR (new_signed IInt 2))])])])]); (new_ast AST_INIT_DECLOR_LIST [(new_ast AST_INIT_DECLOR [(new_identifier_ast AST_IDENT_DECLOR [101; 110; 117; 109; 101; 114; 97; 116; 105; 111; 110])])])]) None None.
Example test_resolve_unnamed_enum_decl_ok : got test_resolve_unnamed_enum_decl = Some (new_srt SRT_DECL_LIST [(new_srt SRT_INIT_DECL [(new_identifier_srt SRT_IDENT_DECL DTYPE_INT [101; 110; 117; 109; 101; 114; 97; 116; 105; 111; 110])])]). Proof. vm_compute. reflexivity. Qed.
(** tests/resolver/test_declaration.c test_resolve_unnamed_enum_decl_49 *)
Definition test_resolve_unnamed_enum_decl_49 := global_decl_test (new_ast AST_DECL [(new_ast AST_DECL_SPECS [(new_ast AST_TYPE_ENUM [(new_ast AST_ENUMOR_LIST [(new_ast AST_ENUMOR [(new_identifier_ast AST_ENUM_CONST [70; 73; 82; 83; 84])]); (new_ast AST_ENUMOR [(new_identifier_ast AST_ENUM_CONST [83; 69; 67; 79; 78; 68])]); (new_ast AST_ENUMOR [(new_identifier_ast AST_ENUM_CONST [84; 72; 73; 82; 68]); (new_iliteral_ast AST_INT_EXPR (new_signed IInt 2))])])])]); (new_ast AST_INIT_DECLOR_LIST [(new_ast AST_INIT_DECLOR [(new_identifier_ast AST_IDENT_DECLOR [101; 110; 117; 109; 101; 114; 97; 116; 105; 111; 110])])])]) None None.
Example test_resolve_unnamed_enum_decl_49_ok : got test_resolve_unnamed_enum_decl_49 = Some (new_srt SRT_DECL_LIST [(new_srt SRT_INIT_DECL [(new_identifier_srt SRT_IDENT_DECL DTYPE_INT [101; 110; 117; 109; 101; 114; 97; 116; 105; 111; 110])])]). Proof. vm_compute. reflexivity. Qed.
(** tests/resolver/test_declaration.c test_resolve_nameonly_enum_decl *)
Definition test_resolve_nameonly_enum_decl := local_decl_test (new_ast AST_DECL [(new_ast AST_DECL_SPECS [(new_ast AST_TYPE_ENUM [(new_identifier_ast AST_ENUM_NAME [69; 110; 117; 109])])]); (new_ast AST_INIT_DECLOR_LIST [(new_ast AST_INIT_DECLOR [(new_identifier_ast AST_IDENT_DECLOR [101; 110; 117; 109; 101; 114; 97; 116; 105; 111; 110])])])]) None None.
Example test_resolve_nameonly_enum_decl_ok : got test_resolve_nameonly_enum_decl = Some (new_srt SRT_DECL_LIST [(new_srt SRT_INIT_DECL [(new_identifier_srt SRT_IDENT_DECL DTYPE_INT [101; 110; 117; 109; 101; 114; 97; 116; 105; 111; 110])])]). Proof. vm_compute. reflexivity. Qed.
(** tests/resolver/test_declaration.c test_resolve_nameonly_enum_decl_51 *)
Definition test_resolve_nameonly_enum_decl_51 := global_decl_test (new_ast AST_DECL [(new_ast AST_DECL_SPECS [(new_ast AST_TYPE_ENUM [(new_identifier_ast AST_ENUM_NAME [69; 110; 117; 109])])]); (new_ast AST_INIT_DECLOR_LIST [(new_ast AST_INIT_DECLOR [(new_identifier_ast AST_IDENT_DECLOR [101; 110; 117; 109; 101; 114; 97; 116; 105; 111; 110])])])]) None None.
Example test_resolve_nameonly_enum_decl_51_ok : got test_resolve_nameonly_enum_decl_51 = Some (new_srt SRT_DECL_LIST [(new_srt SRT_INIT_DECL [(new_identifier_srt SRT_IDENT_DECL DTYPE_INT [101; 110; 117; 109; 101; 114; 97; 116; 105; 111; 110])])]). Proof. vm_compute. reflexivity. Qed.
(** tests/resolver/test_declaration.c test_resolve_enum_name_decl *)
Definition test_resolve_enum_name_decl := local_decl_test (new_ast AST_DECL [(new_ast AST_DECL_SPECS [(new_ast AST_TYPE_ENUM [(new_identifier_ast AST_ENUM_NAME [69; 110; 117; 109]); (new_ast AST_ENUMOR_LIST [(new_ast AST_ENUMOR [(new_identifier_ast AST_ENUM_CONST [70; 73; 82; 83; 84])]); (new_ast AST_ENUMOR [(new_identifier_ast AST_ENUM_CONST [83; 69; 67; 79; 78; 68]); (new_iliteral_ast AST_INT_EXPR (new_signed IInt 5))]); (new_ast AST_ENUMOR [(new_identifier_ast AST_ENUM_CONST [84; 72; 73; 82; 68])])])])])]) None None.
Example test_resolve_enum_name_decl_ok : got test_resolve_enum_name_decl = Some (new_srt SRT_DECL_LIST []). Proof. vm_compute. reflexivity. Qed.
(** tests/resolver/test_declaration.c test_resolve_enum_name_decl_53 *)
Definition test_resolve_enum_name_decl_53 := global_decl_test (new_ast AST_DECL [(new_ast AST_DECL_SPECS [(new_ast AST_TYPE_ENUM [(new_identifier_ast AST_ENUM_NAME [69; 110; 117; 109]); (new_ast AST_ENUMOR_LIST [(new_ast AST_ENUMOR [(new_identifier_ast AST_ENUM_CONST [70; 73; 82; 83; 84])]); (new_ast AST_ENUMOR [(new_identifier_ast AST_ENUM_CONST [83; 69; 67; 79; 78; 68]); (new_iliteral_ast AST_INT_EXPR (new_signed IInt 5))]); (new_ast AST_ENUMOR [(new_identifier_ast AST_ENUM_CONST [84; 72; 73; 82; 68])])])])])]) None None.
Example test_resolve_enum_name_decl_53_ok : got test_resolve_enum_name_decl_53 = Some (new_srt SRT_DECL_LIST []). Proof. vm_compute. reflexivity. Qed.
(** tests/resolver/test_declaration.c test_resolve_function_decl *)
Definition test_resolve_function_decl := local_decl_test (new_ast AST_DECL [(new_ast AST_DECL_SPECS [(new_ast AST_TYPE_CHAR [])]); (new_ast AST_INIT_DECLOR_LIST [(new_ast AST_INIT_DECLOR [(new_ast AST_FUNC_DECLOR [(new_ast AST_PTR_DECLOR [(new_identifier_ast AST_IDENT_DECLOR [102])]); (new_ast AST_PARAM_LIST [(new_ast AST_PARAM_DECL [(new_ast AST_DECL_SPECS [(new_ast AST_TYPE_VOID [])]); (new_ast AST_ABS_DECLOR [])])])])]); (new_ast AST_INIT_DECLOR [(new_ast AST_FUNC_DECLOR [(new_identifier_ast AST_IDENT_DECLOR [103]); (new_ast AST_PARAM_LIST [(new_ast AST_PARAM_DECL [(new_ast AST_DECL_SPECS [(new_ast AST_TYPE_INT [])]); (new_identifier_ast AST_IDENT_DECLOR [97])])])])]); (new_ast AST_INIT_DECLOR [(new_ast AST_FUNC_DECLOR [(new_identifier_ast AST_IDENT_DECLOR [104]); (new_ast AST_PARAM_LIST [(new_ast AST_PARAM_DECL [(new_ast AST_DECL_SPECS [(new_ast AST_TYPE_INT [])]); (new_identifier_ast AST_IDENT_DECLOR [98])]); (new_ast AST_PARAM_DECL [(new_ast AST_DECL_SPECS [(new_ast AST_TYPE_INT [])]); (new_identifier_ast AST_IDENT_DECLOR [99])])])])])])]) None None.
Example test_resolve_function_decl_ok : got test_resolve_function_decl = Some (new_srt SRT_DECL_LIST [(new_srt SRT_INIT_DECL [(new_identifier_srt SRT_IDENT_DECL (DTYPE_FUNCTION [] (DTYPE_POINTER DTYPE_CHAR)) [102])]); (new_srt SRT_INIT_DECL [(new_identifier_srt SRT_IDENT_DECL (DTYPE_FUNCTION [(Some [97], DTYPE_INT)] DTYPE_CHAR) [103])]); (new_srt SRT_INIT_DECL [(new_identifier_srt SRT_IDENT_DECL (DTYPE_FUNCTION [(Some [98], DTYPE_INT); (Some [99], DTYPE_INT)] DTYPE_CHAR) [104])])]). Proof. vm_compute. reflexivity. Qed.
(** tests/resolver/test_declaration.c test_resolve_function_decl_55 *)
Definition test_resolve_function_decl_55 := global_decl_test (new_ast AST_DECL [(new_ast AST_DECL_SPECS [(new_ast AST_TYPE_CHAR [])]); (new_ast AST_INIT_DECLOR_LIST [(new_ast AST_INIT_DECLOR [(new_ast AST_FUNC_DECLOR [(new_ast AST_PTR_DECLOR [(new_identifier_ast AST_IDENT_DECLOR [102])]); (new_ast AST_PARAM_LIST [(new_ast AST_PARAM_DECL [(new_ast AST_DECL_SPECS [(new_ast AST_TYPE_VOID [])]); (new_ast AST_ABS_DECLOR [])])])])]); (new_ast AST_INIT_DECLOR [(new_ast AST_FUNC_DECLOR [(new_identifier_ast AST_IDENT_DECLOR [103]); (new_ast AST_PARAM_LIST [(new_ast AST_PARAM_DECL [(new_ast AST_DECL_SPECS [(new_ast AST_TYPE_INT [])]); (new_identifier_ast AST_IDENT_DECLOR [97])])])])]); (new_ast AST_INIT_DECLOR [(new_ast AST_FUNC_DECLOR [(new_identifier_ast AST_IDENT_DECLOR [104]); (new_ast AST_PARAM_LIST [(new_ast AST_PARAM_DECL [(new_ast AST_DECL_SPECS [(new_ast AST_TYPE_INT [])]); (new_identifier_ast AST_IDENT_DECLOR [98])]); (new_ast AST_PARAM_DECL [(new_ast AST_DECL_SPECS [(new_ast AST_TYPE_INT [])]); (new_identifier_ast AST_IDENT_DECLOR [99])])])])])])]) None None.
Example test_resolve_function_decl_55_ok : got test_resolve_function_decl_55 = Some (new_srt SRT_DECL_LIST [(new_srt SRT_INIT_DECL [(new_identifier_srt SRT_IDENT_DECL (DTYPE_FUNCTION [] (DTYPE_POINTER DTYPE_CHAR)) [102])]); (new_srt SRT_INIT_DECL [(new_identifier_srt SRT_IDENT_DECL (DTYPE_FUNCTION [(Some [97], DTYPE_INT)] DTYPE_CHAR) [103])]); (new_srt SRT_INIT_DECL [(new_identifier_srt SRT_IDENT_DECL (DTYPE_FUNCTION [(Some [98], DTYPE_INT); (Some [99], DTYPE_INT)] DTYPE_CHAR) [104])])]). Proof. vm_compute. reflexivity. Qed.
(** tests/resolver/test_declaration.c test_resolve_non_scalar_parameter_decl *)
Definition test_resolve_non_scalar_parameter_decl := local_decl_test (new_ast AST_DECL [(new_ast AST_DECL_SPECS [(new_ast AST_TYPE_INT [])]); (new_ast AST_INIT_DECLOR_LIST [(new_ast AST_INIT_DECLOR [(new_ast AST_FUNC_DECLOR [(new_identifier_ast AST_IDENT_DECLOR [102; 117; 110; 99]); (new_ast AST_PARAM_LIST [(new_ast AST_PARAM_DECL [(new_ast AST_DECL_SPECS [(new_ast AST_TYPE_INT [])]); (new_ast AST_ARRAY_DECLOR [(new_identifier_ast AST_IDENT_DECLOR [97]); (new_iliteral_ast AST_INT_EXPR (new_signed IInt 5))])]); (new_ast AST_PARAM_DECL [(new_ast AST_DECL_SPECS [(new_ast AST_TYPE_CHAR [])]); (new_ast AST_FUNC_DECLOR [(new_ast AST_PTR_DECLOR [(new_identifier_ast AST_IDENT_DECLOR [102])]); (new_ast AST_PARAM_LIST [(new_ast AST_PARAM_DECL [(new_ast AST_DECL_SPECS [(new_ast AST_TYPE_INT [])]); (new_identifier_ast AST_IDENT_DECLOR [112])])])])])])])])])]) None None.
Example test_resolve_non_scalar_parameter_decl_ok : got test_resolve_non_scalar_parameter_decl = Some (new_srt SRT_DECL_LIST [(new_srt SRT_INIT_DECL [(new_identifier_srt SRT_IDENT_DECL (DTYPE_FUNCTION [(Some [97], (DTYPE_POINTER DTYPE_INT)); (Some [102], (DTYPE_POINTER (DTYPE_FUNCTION [(Some [112], DTYPE_INT)] (DTYPE_POINTER DTYPE_CHAR))))] DTYPE_INT) [102; 117; 110; 99])])]). Proof. vm_compute. reflexivity. Qed.
(** tests/resolver/test_declaration.c test_resolve_non_scalar_parameter_decl_57 *)
Definition test_resolve_non_scalar_parameter_decl_57 := global_decl_test (new_ast AST_DECL [(new_ast AST_DECL_SPECS [(new_ast AST_TYPE_INT [])]); (new_ast AST_INIT_DECLOR_LIST [(new_ast AST_INIT_DECLOR [(new_ast AST_FUNC_DECLOR [(new_identifier_ast AST_IDENT_DECLOR [102; 117; 110; 99]); (new_ast AST_PARAM_LIST [(new_ast AST_PARAM_DECL [(new_ast AST_DECL_SPECS [(new_ast AST_TYPE_INT [])]); (new_ast AST_ARRAY_DECLOR [(new_identifier_ast AST_IDENT_DECLOR [97]); (new_iliteral_ast AST_INT_EXPR (new_signed IInt 5))])]); (new_ast AST_PARAM_DECL [(new_ast AST_DECL_SPECS [(new_ast AST_TYPE_CHAR [])]); (new_ast AST_FUNC_DECLOR [(new_ast AST_PTR_DECLOR [(new_identifier_ast AST_IDENT_DECLOR [102])]); (new_ast AST_PARAM_LIST [(new_ast AST_PARAM_DECL [(new_ast AST_DECL_SPECS [(new_ast AST_TYPE_INT [])]); (new_identifier_ast AST_IDENT_DECLOR [112])])])])])])])])])]) None None.
Example test_resolve_non_scalar_parameter_decl_57_ok : got test_resolve_non_scalar_parameter_decl_57 = Some (new_srt SRT_DECL_LIST [(new_srt SRT_INIT_DECL [(new_identifier_srt SRT_IDENT_DECL (DTYPE_FUNCTION [(Some [97], (DTYPE_POINTER DTYPE_INT)); (Some [102], (DTYPE_POINTER (DTYPE_FUNCTION [(Some [112], DTYPE_INT)] (DTYPE_POINTER DTYPE_CHAR))))] DTYPE_INT) [102; 117; 110; 99])])]). Proof. vm_compute. reflexivity. Qed.
(** tests/resolver/test_declaration.c test_resolve_unnamed_parameter_decl *)
Definition test_resolve_unnamed_parameter_decl := local_decl_test (new_ast AST_DECL [(new_ast AST_DECL_SPECS [(new_ast AST_TYPE_VOID [])]); (new_ast AST_INIT_DECLOR_LIST [(new_ast AST_INIT_DECLOR [(new_ast AST_FUNC_DECLOR [(new_identifier_ast AST_IDENT_DECLOR [102]); (new_ast AST_PARAM_LIST [(new_ast AST_PARAM_DECL [(new_ast AST_DECL_SPECS [(new_ast AST_TYPE_VOID [])]); (new_ast AST_ABS_DECLOR [])])])])]); (new_ast AST_INIT_DECLOR [(new_ast AST_FUNC_DECLOR [(new_identifier_ast AST_IDENT_DECLOR [103]); (new_ast AST_PARAM_LIST [(new_ast AST_PARAM_DECL [(new_ast AST_DECL_SPECS [(new_ast AST_TYPE_CHAR [])]); (new_ast AST_ABS_DECLOR [])]); (new_ast AST_PARAM_DECL [(new_ast AST_DECL_SPECS [(new_ast AST_TYPE_INT [])]); (new_ast AST_FUNC_DECLOR [(new_ast AST_ABS_DECLOR []); (new_ast AST_PARAM_LIST [(new_ast AST_PARAM_DECL [(new_ast AST_DECL_SPECS [(new_ast AST_TYPE_INT [])]); (new_ast AST_ABS_DECLOR [])])])])])])])]); (new_ast AST_INIT_DECLOR [(new_ast AST_FUNC_DECLOR [(new_identifier_ast AST_IDENT_DECLOR [104]); (new_ast AST_PARAM_LIST [(new_ast AST_PARAM_DECL [(new_ast AST_DECL_SPECS [(new_ast AST_TYPE_INT [])]); (new_identifier_ast AST_IDENT_DECLOR [120])]); (new_ast AST_PARAM_DECL [(new_ast AST_DECL_SPECS [(new_ast AST_TYPE_INT [])]); (new_ast AST_ABS_DECLOR [])])])])])])]) None None.
Example test_resolve_unnamed_parameter_decl_ok : got test_resolve_unnamed_parameter_decl = Some (new_srt SRT_DECL_LIST [(new_srt SRT_INIT_DECL [(new_identifier_srt SRT_IDENT_DECL (DTYPE_FUNCTION [] DTYPE_VOID) [102])]); (new_srt SRT_INIT_DECL [(new_identifier_srt SRT_IDENT_DECL (DTYPE_FUNCTION [(None, DTYPE_CHAR); (None, (DTYPE_POINTER (DTYPE_FUNCTION [(None, DTYPE_INT)] DTYPE_INT)))] DTYPE_VOID) [103])]); (new_srt SRT_INIT_DECL [(new_identifier_srt SRT_IDENT_DECL (DTYPE_FUNCTION [(Some [120], DTYPE_INT); (None, DTYPE_INT)] DTYPE_VOID) [104])])]). Proof. vm_compute. reflexivity. Qed.
(** tests/resolver/test_declaration.c test_resolve_unnamed_parameter_decl_59 *)
Definition test_resolve_unnamed_parameter_decl_59 := global_decl_test (new_ast AST_DECL [(new_ast AST_DECL_SPECS [(new_ast AST_TYPE_VOID [])]); (new_ast AST_INIT_DECLOR_LIST [(new_ast AST_INIT_DECLOR [(new_ast AST_FUNC_DECLOR [(new_identifier_ast AST_IDENT_DECLOR [102]); (new_ast AST_PARAM_LIST [(new_ast AST_PARAM_DECL [(new_ast AST_DECL_SPECS [(new_ast AST_TYPE_VOID [])]); (new_ast AST_ABS_DECLOR [])])])])]); (new_ast AST_INIT_DECLOR [(new_ast AST_FUNC_DECLOR [(new_identifier_ast AST_IDENT_DECLOR [103]); (new_ast AST_PARAM_LIST [(new_ast AST_PARAM_DECL [(new_ast AST_DECL_SPECS [(new_ast AST_TYPE_CHAR [])]); (new_ast AST_ABS_DECLOR [])]); (new_ast AST_PARAM_DECL [(new_ast AST_DECL_SPECS [(new_ast AST_TYPE_INT [])]); (new_ast AST_FUNC_DECLOR [(new_ast AST_ABS_DECLOR []); (new_ast AST_PARAM_LIST [(new_ast AST_PARAM_DECL [(new_ast AST_DECL_SPECS [(new_ast AST_TYPE_INT [])]); (new_ast AST_ABS_DECLOR [])])])])])])])]); (new_ast AST_INIT_DECLOR [(new_ast AST_FUNC_DECLOR [(new_identifier_ast AST_IDENT_DECLOR [104]); (new_ast AST_PARAM_LIST [(new_ast AST_PARAM_DECL [(new_ast AST_DECL_SPECS [(new_ast AST_TYPE_INT [])]); (new_identifier_ast AST_IDENT_DECLOR [120])]); (new_ast AST_PARAM_DECL [(new_ast AST_DECL_SPECS [(new_ast AST_TYPE_INT [])]); (new_ast AST_ABS_DECLOR [])])])])])])]) None None.
Example test_resolve_unnamed_parameter_decl_59_ok : got test_resolve_unnamed_parameter_decl_59 = Some (new_srt SRT_DECL_LIST [(new_srt SRT_INIT_DECL [(new_identifier_srt SRT_IDENT_DECL (DTYPE_FUNCTION [] DTYPE_VOID) [102])]); (new_srt SRT_INIT_DECL [(new_identifier_srt SRT_IDENT_DECL (DTYPE_FUNCTION [(None, DTYPE_CHAR); (None, (DTYPE_POINTER (DTYPE_FUNCTION [(None, DTYPE_INT)] DTYPE_INT)))] DTYPE_VOID) [103])]); (new_srt SRT_INIT_DECL [(new_identifier_srt SRT_IDENT_DECL (DTYPE_FUNCTION [(Some [120], DTYPE_INT); (None, DTYPE_INT)] DTYPE_VOID) [104])])]). Proof. vm_compute. reflexivity. Qed.
(** tests/resolver/test_declaration.c test_resolve_typedef_decl *)
Definition test_resolve_typedef_decl := local_decl_test (new_ast AST_DECL [(new_ast AST_DECL_SPECS [(new_identifier_ast AST_TYPEDEF_NAME [116; 101; 115; 116; 95; 116; 121; 112; 101])]); (new_ast AST_INIT_DECLOR_LIST [(new_ast AST_INIT_DECLOR [(new_identifier_ast AST_IDENT_DECLOR [120])])])]) (Some [(fun t => sym_define_label t [116; 101; 115; 116; 95; 116; 121; 112; 101] (DTYPE_TYPEDEF (DTYPE_POINTER DTYPE_CHAR)))]) None.
Example test_resolve_typedef_decl_ok : got test_resolve_typedef_decl = Some (new_srt SRT_DECL_LIST [(new_srt SRT_INIT_DECL [(new_identifier_srt SRT_IDENT_DECL (DTYPE_POINTER DTYPE_CHAR) [120])])]). Proof. vm_compute. reflexivity. Qed.
(** tests/resolver/test_declaration.c test_resolve_typedef_decl_61 *)
Definition test_resolve_typedef_decl_61 := global_decl_test (new_ast AST_DECL [(new_ast AST_DECL_SPECS [(new_identifier_ast AST_TYPEDEF_NAME [116; 101; 115; 116; 95; 116; 121; 112; 101])]); (new_ast AST_INIT_DECLOR_LIST [(new_ast AST_INIT_DECLOR [(new_identifier_ast AST_IDENT_DECLOR [120])])])]) (Some [(fun t => sym_define_label t [116; 101; 115; 116; 95; 116; 121; 112; 101] (DTYPE_TYPEDEF (DTYPE_POINTER DTYPE_CHAR)))]) None.
Example test_resolve_typedef_decl_61_ok : got test_resolve_typedef_decl_61 = Some (new_srt SRT_DECL_LIST [(new_srt SRT_INIT_DECL [(new_identifier_srt SRT_IDENT_DECL (DTYPE_POINTER DTYPE_CHAR) [120])])]). Proof. vm_compute. reflexivity. Qed.
(** tests/resolver/test_declaration.c test_resolve_enclosed_decl_array *)
Definition test_resolve_enclosed_decl_array := local_decl_test (new_ast AST_DECL [(new_ast AST_DECL_SPECS [(new_ast AST_TYPE_INT [])]); (new_ast AST_INIT_DECLOR_LIST [(new_ast AST_INIT_DECLOR [(new_ast AST_ARRAY_DECLOR [(new_ast AST_PTR_DECLOR [(new_ast AST_FUNC_DECLOR [(new_identifier_ast AST_IDENT_DECLOR [97; 112; 102; 105]); (new_ast AST_PARAM_LIST [(new_ast AST_PARAM_DECL [(new_ast AST_DECL_SPECS [(new_ast AST_TYPE_INT [])]); (new_ast AST_PTR_DECLOR [(new_identifier_ast AST_IDENT_DECLOR [120])])]); (new_ast AST_PARAM_DECL [(new_ast AST_DECL_SPECS [(new_ast AST_TYPE_INT [])]); (new_ast AST_PTR_DECLOR [(new_identifier_ast AST_IDENT_DECLOR [121])])])])])]); (new_iliteral_ast AST_INT_EXPR (new_signed IInt 3))])])])]) None None.
Example test_resolve_enclosed_decl_array_ok : got test_resolve_enclosed_decl_array = Some (new_srt SRT_DECL_LIST [(new_srt SRT_INIT_DECL [(new_identifier_srt SRT_IDENT_DECL (DTYPE_ARRAY (DTYPE_POINTER (DTYPE_FUNCTION [(Some [120], (DTYPE_POINTER DTYPE_INT)); (Some [121], (DTYPE_POINTER DTYPE_INT))] DTYPE_INT)) 3) [97; 112; 102; 105])])]). Proof. vm_compute. reflexivity. Qed.
(** tests/resolver/test_declaration.c test_resolve_enclosed_decl_array_63 *)
Definition test_resolve_enclosed_decl_array_63 := global_decl_test (new_ast AST_DECL [(new_ast AST_DECL_SPECS [(new_ast AST_TYPE_INT [])]); (new_ast AST_INIT_DECLOR_LIST [(new_ast AST_INIT_DECLOR [(new_ast AST_ARRAY_DECLOR [(new_ast AST_PTR_DECLOR [(new_ast AST_FUNC_DECLOR [(new_identifier_ast AST_IDENT_DECLOR [97; 112; 102; 105]); (new_ast AST_PARAM_LIST [(new_ast AST_PARAM_DECL [(new_ast AST_DECL_SPECS [(new_ast AST_TYPE_INT [])]); (new_ast AST_PTR_DECLOR [(new_identifier_ast AST_IDENT_DECLOR [120])])]); (new_ast AST_PARAM_DECL [(new_ast AST_DECL_SPECS [(new_ast AST_TYPE_INT [])]); (new_ast AST_PTR_DECLOR [(new_identifier_ast AST_IDENT_DECLOR [121])])])])])]); (new_iliteral_ast AST_INT_EXPR (new_signed IInt 3))])])])]) None None.
Example test_resolve_enclosed_decl_array_63_ok : got test_resolve_enclosed_decl_array_63 = Some (new_srt SRT_DECL_LIST [(new_srt SRT_INIT_DECL [(new_identifier_srt SRT_IDENT_DECL (DTYPE_ARRAY (DTYPE_POINTER (DTYPE_FUNCTION [(Some [120], (DTYPE_POINTER DTYPE_INT)); (Some [121], (DTYPE_POINTER DTYPE_INT))] DTYPE_INT)) 3) [97; 112; 102; 105])])]). Proof. vm_compute. reflexivity. Qed.
(** tests/resolver/test_declaration.c test_resolve_enclosed_decl_function *)
Definition test_resolve_enclosed_decl_function := local_decl_test (new_ast AST_DECL [(new_ast AST_DECL_SPECS [(new_ast AST_TYPE_VOID [])]); (new_ast AST_INIT_DECLOR_LIST [(new_ast AST_INIT_DECLOR [(new_ast AST_FUNC_DECLOR [(new_ast AST_PTR_DECLOR [(new_ast AST_FUNC_DECLOR [(new_identifier_ast AST_IDENT_DECLOR [115; 105; 103; 110; 97; 108]); (new_ast AST_PARAM_LIST [(new_ast AST_PARAM_DECL [(new_ast AST_DECL_SPECS [(new_ast AST_TYPE_INT [])]); (new_ast AST_ABS_DECLOR [])])])])]); (new_ast AST_PARAM_LIST [(new_ast AST_PARAM_DECL [(new_ast AST_DECL_SPECS [(new_ast AST_TYPE_INT [])]); (new_identifier_ast AST_IDENT_DECLOR [115; 105; 103])]); (new_ast AST_PARAM_DECL [(new_ast AST_DECL_SPECS [(new_ast AST_TYPE_VOID [])]); (new_ast AST_PTR_DECLOR [(new_ast AST_FUNC_DECLOR [(new_identifier_ast AST_IDENT_DECLOR [102; 117; 110; 99]); (new_ast AST_PARAM_LIST [(new_ast AST_PARAM_DECL [(new_ast AST_DECL_SPECS [(new_ast AST_TYPE_INT [])]); (new_ast AST_ABS_DECLOR [])])])])])])])])])])]) None None.
Example test_resolve_enclosed_decl_function_ok : got test_resolve_enclosed_decl_function = Some (new_srt SRT_DECL_LIST [(new_srt SRT_INIT_DECL [(new_identifier_srt SRT_IDENT_DECL (DTYPE_FUNCTION [(Some [115; 105; 103], DTYPE_INT); (Some [102; 117; 110; 99], (DTYPE_POINTER (DTYPE_FUNCTION [(None, DTYPE_INT)] DTYPE_VOID)))] (DTYPE_POINTER (DTYPE_FUNCTION [(None, DTYPE_INT)] DTYPE_VOID))) [115; 105; 103; 110; 97; 108])])]). Proof. vm_compute. reflexivity. Qed.
(** tests/resolver/test_declaration.c test_resolve_enclosed_decl_function_65 *)
Definition test_resolve_enclosed_decl_function_65 := global_decl_test (new_ast AST_DECL [(new_ast AST_DECL_SPECS [(new_ast AST_TYPE_VOID [])]); (new_ast AST_INIT_DECLOR_LIST [(new_ast AST_INIT_DECLOR [(new_ast AST_FUNC_DECLOR [(new_ast AST_PTR_DECLOR [(new_ast AST_FUNC_DECLOR [(new_identifier_ast AST_IDENT_DECLOR [115; 105; 103; 110; 97; 108]); (new_ast AST_PARAM_LIST [(new_ast AST_PARAM_DECL [(new_ast AST_DECL_SPECS [(new_ast AST_TYPE_INT [])]); (new_ast AST_ABS_DECLOR [])])])])]); (new_ast AST_PARAM_LIST [(new_ast AST_PARAM_DECL [(new_ast AST_DECL_SPECS [(new_ast AST_TYPE_INT [])]); (new_identifier_ast AST_IDENT_DECLOR [115; 105; 103])]); (new_ast AST_PARAM_DECL [(new_ast AST_DECL_SPECS [(new_ast AST_TYPE_VOID [])]); (new_ast AST_PTR_DECLOR [(new_ast AST_FUNC_DECLOR [(new_identifier_ast AST_IDENT_DECLOR [102; 117; 110; 99]); (new_ast AST_PARAM_LIST [(new_ast AST_PARAM_DECL [(new_ast AST_DECL_SPECS [(new_ast AST_TYPE_INT [])]); (new_ast AST_ABS_DECLOR [])])])])])])])])])])]) None None.
Example test_resolve_enclosed_decl_function_65_ok : got test_resolve_enclosed_decl_function_65 = Some (new_srt SRT_DECL_LIST [(new_srt SRT_INIT_DECL [(new_identifier_srt SRT_IDENT_DECL (DTYPE_FUNCTION [(Some [115; 105; 103], DTYPE_INT); (Some [102; 117; 110; 99], (DTYPE_POINTER (DTYPE_FUNCTION [(None, DTYPE_INT)] DTYPE_VOID)))] (DTYPE_POINTER (DTYPE_FUNCTION [(None, DTYPE_INT)] DTYPE_VOID))) [115; 105; 103; 110; 97; 108])])]). Proof. vm_compute. reflexivity. Qed.
(** tests/resolver/test_declaration.c test_resolve_enclosed_decl_abstract_params *)
Definition test_resolve_enclosed_decl_abstract_params := local_decl_test (new_ast AST_DECL [(new_ast AST_DECL_SPECS [(new_ast AST_TYPE_VOID [])]); (new_ast AST_INIT_DECLOR_LIST [(new_ast AST_INIT_DECLOR [(new_ast AST_FUNC_DECLOR [(new_ast AST_PTR_DECLOR [(new_ast AST_FUNC_DECLOR [(new_identifier_ast AST_IDENT_DECLOR [115; 105; 103; 110; 97; 108]); (new_ast AST_PARAM_LIST [(new_ast AST_PARAM_DECL [(new_ast AST_DECL_SPECS [(new_ast AST_TYPE_INT [])]); (new_ast AST_ABS_DECLOR [])])])])]); (new_ast AST_PARAM_LIST [(new_ast AST_PARAM_DECL [(new_ast AST_DECL_SPECS [(new_ast AST_TYPE_INT [])]); (new_ast AST_ABS_DECLOR [])]); (new_ast AST_PARAM_DECL [(new_ast AST_DECL_SPECS [(new_ast AST_TYPE_VOID [])]); (new_ast AST_PTR_DECLOR [(new_ast AST_FUNC_DECLOR [(new_ast AST_ABS_DECLOR []); (new_ast AST_PARAM_LIST [(new_ast AST_PARAM_DECL [(new_ast AST_DECL_SPECS [(new_ast AST_TYPE_INT [])]); (new_ast AST_ABS_DECLOR [])])])])])])])])])])]) None None.
Example test_resolve_enclosed_decl_abstract_params_ok : got test_resolve_enclosed_decl_abstract_params = Some (new_srt SRT_DECL_LIST [(new_srt SRT_INIT_DECL [(new_identifier_srt SRT_IDENT_DECL (DTYPE_FUNCTION [(None, DTYPE_INT); (None, (DTYPE_POINTER (DTYPE_FUNCTION [(None, DTYPE_INT)] DTYPE_VOID)))] (DTYPE_POINTER (DTYPE_FUNCTION [(None, DTYPE_INT)] DTYPE_VOID))) [115; 105; 103; 110; 97; 108])])]). Proof. vm_compute. reflexivity. Qed.
(** tests/resolver/test_declaration.c test_resolve_enclosed_decl_abstract_params_67 *)
Definition test_resolve_enclosed_decl_abstract_params_67 := global_decl_test (new_ast AST_DECL [(new_ast AST_DECL_SPECS [(new_ast AST_TYPE_VOID [])]); (new_ast AST_INIT_DECLOR_LIST [(new_ast AST_INIT_DECLOR [(new_ast AST_FUNC_DECLOR [(new_ast AST_PTR_DECLOR [(new_ast AST_FUNC_DECLOR [(new_identifier_ast AST_IDENT_DECLOR [115; 105; 103; 110; 97; 108]); (new_ast AST_PARAM_LIST [(new_ast AST_PARAM_DECL [(new_ast AST_DECL_SPECS [(new_ast AST_TYPE_INT [])]); (new_ast AST_ABS_DECLOR [])])])])]); (new_ast AST_PARAM_LIST [(new_ast AST_PARAM_DECL [(new_ast AST_DECL_SPECS [(new_ast AST_TYPE_INT [])]); (new_ast AST_ABS_DECLOR [])]); (new_ast AST_PARAM_DECL [(new_ast AST_DECL_SPECS [(new_ast AST_TYPE_VOID [])]); (new_ast AST_PTR_DECLOR [(new_ast AST_FUNC_DECLOR [(new_ast AST_ABS_DECLOR []); (new_ast AST_PARAM_LIST [(new_ast AST_PARAM_DECL [(new_ast AST_DECL_SPECS [(new_ast AST_TYPE_INT [])]); (new_ast AST_ABS_DECLOR [])])])])])])])])])])]) None None.
Example test_resolve_enclosed_decl_abstract_params_67_ok : got test_resolve_enclosed_decl_abstract_params_67 = Some (new_srt SRT_DECL_LIST [(new_srt SRT_INIT_DECL [(new_identifier_srt SRT_IDENT_DECL (DTYPE_FUNCTION [(None, DTYPE_INT); (None, (DTYPE_POINTER (DTYPE_FUNCTION [(None, DTYPE_INT)] DTYPE_VOID)))] (DTYPE_POINTER (DTYPE_FUNCTION [(None, DTYPE_INT)] DTYPE_VOID))) [115; 105; 103; 110; 97; 108])])]). Proof. vm_compute. reflexivity. Qed.
(** tests/resolver/test_declaration.c test_resolve_scalar_init *)
Definition test_resolve_scalar_init := local_decl_test (new_ast AST_DECL [(new_ast AST_DECL_SPECS [(new_ast AST_TYPE_INT [])]); (new_ast AST_INIT_DECLOR_LIST [(new_ast AST_INIT_DECLOR [(new_identifier_ast AST_IDENT_DECLOR [115; 99; 97; 108; 97; 114]); (new_ast AST_ASSIGN_EXPR [(new_identifier_ast AST_IDENT_EXPR [120]); (new_iliteral_ast AST_INT_EXPR (new_signed IInt 2))])])])]) (Some [(fun t => sym_define_memory t [120] DTYPE_INT)]) None.
Example test_resolve_scalar_init_ok : got test_resolve_scalar_init = Some (new_srt SRT_DECL_LIST [(new_srt SRT_INIT_DECL [(new_identifier_srt SRT_IDENT_DECL DTYPE_INT [115; 99; 97; 108; 97; 114]); (new_srt SRT_INIT [(new_dtyped_srt SRT_ASSIGN_EXPR DTYPE_INT [(new_dtyped_srt SRT_ADDR_EXPR (DTYPE_POINTER DTYPE_INT) [(new_identifier_srt SRT_IDENT_EXPR DTYPE_INT [120])]); (new_iliteral_srt DTYPE_INT (new_signed IInt 2))])])])]). Proof. vm_compute. reflexivity. Qed.
(** tests/resolver/test_declaration.c test_resolve_scalar_init_69 *)
Definition test_resolve_scalar_init_69 := global_decl_test (new_ast AST_DECL [(new_ast AST_DECL_SPECS [(new_ast AST_TYPE_INT [])]); (new_ast AST_INIT_DECLOR_LIST [(new_ast AST_INIT_DECLOR [(new_identifier_ast AST_IDENT_DECLOR [115; 99; 97; 108; 97; 114]); (new_ast AST_ASSIGN_EXPR [(new_identifier_ast AST_IDENT_EXPR [120]); (new_iliteral_ast AST_INT_EXPR (new_signed IInt 2))])])])]) (Some [(fun t => sym_define_label t [120] DTYPE_INT)]) None.
Example test_resolve_scalar_init_69_ok : got test_resolve_scalar_init_69 = Some (new_srt SRT_DECL_LIST [(new_srt SRT_INIT_DECL [(new_identifier_srt SRT_IDENT_DECL DTYPE_INT [115; 99; 97; 108; 97; 114]); (new_srt SRT_INIT [(new_dtyped_srt SRT_ASSIGN_EXPR DTYPE_INT [(new_dtyped_srt SRT_ADDR_EXPR (DTYPE_POINTER DTYPE_INT) [(new_identifier_srt SRT_IDENT_EXPR DTYPE_INT [120])]); (new_iliteral_srt DTYPE_INT (new_signed IInt 2))])])])]). Proof. vm_compute. reflexivity. Qed.
(** tests/resolver/test_declaration.c test_resolve_scalar_init_enclosed *)
Definition test_resolve_scalar_init_enclosed := local_decl_test (new_ast AST_DECL [(new_ast AST_DECL_SPECS [(new_ast AST_TYPE_INT [])]); (new_ast AST_INIT_DECLOR_LIST [(new_ast AST_INIT_DECLOR [(new_identifier_ast AST_IDENT_DECLOR [115; 99; 97; 108; 97; 114]); (new_ast AST_INIT_LIST [(new_iliteral_ast AST_INT_EXPR (new_signed IInt 9))])])])]) None None.
Example test_resolve_scalar_init_enclosed_ok : got test_resolve_scalar_init_enclosed = Some (new_srt SRT_DECL_LIST [(new_srt SRT_INIT_DECL [(new_identifier_srt SRT_IDENT_DECL DTYPE_INT [115; 99; 97; 108; 97; 114]); (new_srt SRT_INIT [(new_iliteral_srt DTYPE_INT (new_signed IInt 9))])])]). Proof. vm_compute. reflexivity. Qed.
(** tests/resolver/test_declaration.c test_resolve_scalar_init_enclosed_71 *)
Definition test_resolve_scalar_init_enclosed_71 := global_decl_test (new_ast AST_DECL [(new_ast AST_DECL_SPECS [(new_ast AST_TYPE_INT [])]); (new_ast AST_INIT_DECLOR_LIST [(new_ast AST_INIT_DECLOR [(new_identifier_ast AST_IDENT_DECLOR [115; 99; 97; 108; 97; 114]); (new_ast AST_INIT_LIST [(new_iliteral_ast AST_INT_EXPR (new_signed IInt 9))])])])]) None None.
Example test_resolve_scalar_init_enclosed_71_ok : got test_resolve_scalar_init_enclosed_71 = Some (new_srt SRT_DECL_LIST [(new_srt SRT_INIT_DECL [(new_identifier_srt SRT_IDENT_DECL DTYPE_INT [115; 99; 97; 108; 97; 114]); (new_srt SRT_INIT [(new_iliteral_srt DTYPE_INT (new_signed IInt 9))])])]). Proof. vm_compute. reflexivity. Qed.
(** tests/resolver/test_declaration.c test_resolve_sliteral_init *)
Definition test_resolve_sliteral_init := local_decl_test (new_ast AST_DECL [(new_ast AST_DECL_SPECS [(new_ast AST_TYPE_CHAR [])]); (new_ast AST_INIT_DECLOR_LIST [(new_ast AST_INIT_DECLOR [(new_ast AST_ARRAY_DECLOR [(new_identifier_ast AST_IDENT_DECLOR [97; 114; 114; 97; 121]); (new_iliteral_ast AST_INT_EXPR (new_signed IInt 5))]); (new_sliteral_ast AST_STRING_EXPR [116; 101; 115; 116; 0])])])]) None None.
Example test_resolve_sliteral_init_ok : got test_resolve_sliteral_init = Some (new_srt SRT_DECL_LIST [(new_srt SRT_INIT_DECL [(new_identifier_srt SRT_IDENT_DECL (DTYPE_ARRAY DTYPE_CHAR 5) [97; 114; 114; 97; 121]); (new_srt SRT_INIT [(new_sliteral_srt (DTYPE_ARRAY DTYPE_CHAR 5) [116; 101; 115; 116; 0])])])]). Proof. vm_compute. reflexivity. Qed.
(** tests/resolver/test_declaration.c test_resolve_sliteral_init_73 *)
Definition test_resolve_sliteral_init_73 := global_decl_test (new_ast AST_DECL [(new_ast AST_DECL_SPECS [(new_ast AST_TYPE_CHAR [])]); (new_ast AST_INIT_DECLOR_LIST [(new_ast AST_INIT_DECLOR [(new_ast AST_ARRAY_DECLOR [(new_identifier_ast AST_IDENT_DECLOR [97; 114; 114; 97; 121]); (new_iliteral_ast AST_INT_EXPR (new_signed IInt 5))]); (new_sliteral_ast AST_STRING_EXPR [116; 101; 115; 116; 0])])])]) None None.
Example test_resolve_sliteral_init_73_ok : got test_resolve_sliteral_init_73 = Some (new_srt SRT_DECL_LIST [(new_srt SRT_INIT_DECL [(new_identifier_srt SRT_IDENT_DECL (DTYPE_ARRAY DTYPE_CHAR 5) [97; 114; 114; 97; 121]); (new_srt SRT_INIT [(new_sliteral_srt (DTYPE_ARRAY DTYPE_CHAR 5) [116; 101; 115; 116; 0])])])]). Proof. vm_compute. reflexivity. Qed.
(** tests/resolver/test_declaration.c test_resolve_sliteral_init_border *)
Definition test_resolve_sliteral_init_border := local_decl_test (new_ast AST_DECL [(new_ast AST_DECL_SPECS [(new_ast AST_TYPE_CHAR [])]); (new_ast AST_INIT_DECLOR_LIST [(new_ast AST_INIT_DECLOR [(new_ast AST_ARRAY_DECLOR [(new_identifier_ast AST_IDENT_DECLOR [97; 114; 114; 97; 121]); (new_iliteral_ast AST_INT_EXPR (new_signed IInt 4))]); (new_sliteral_ast AST_STRING_EXPR [116; 101; 115; 116; 0])])])]) None None.
Example test_resolve_sliteral_init_border_ok : got test_resolve_sliteral_init_border = Some (new_srt SRT_DECL_LIST [(new_srt SRT_INIT_DECL [(new_identifier_srt SRT_IDENT_DECL (DTYPE_ARRAY DTYPE_CHAR 4) [97; 114; 114; 97; 121]); (new_srt SRT_INIT [(new_sliteral_srt (DTYPE_ARRAY DTYPE_CHAR 4) (zero_padding_copy [116; 101; 115; 116; 0] 4))])])]). Proof. vm_compute. reflexivity. Qed.
(** tests/resolver/test_declaration.c test_resolve_sliteral_init_border_75 *)
Definition test_resolve_sliteral_init_border_75 := global_decl_test (new_ast AST_DECL [(new_ast AST_DECL_SPECS [(new_ast AST_TYPE_CHAR [])]); (new_ast AST_INIT_DECLOR_LIST [(new_ast AST_INIT_DECLOR [(new_ast AST_ARRAY_DECLOR [(new_identifier_ast AST_IDENT_DECLOR [97; 114; 114; 97; 121]); (new_iliteral_ast AST_INT_EXPR (new_signed IInt 4))]); (new_sliteral_ast AST_STRING_EXPR [116; 101; 115; 116; 0])])])]) None None.
Example test_resolve_sliteral_init_border_75_ok : got test_resolve_sliteral_init_border_75 = Some (new_srt SRT_DECL_LIST [(new_srt SRT_INIT_DECL [(new_identifier_srt SRT_IDENT_DECL (DTYPE_ARRAY DTYPE_CHAR 4) [97; 114; 114; 97; 121]); (new_srt SRT_INIT [(new_sliteral_srt (DTYPE_ARRAY DTYPE_CHAR 4) (zero_padding_copy [116; 101; 115; 116; 0] 4))])])]). Proof. vm_compute. reflexivity. Qed.
(** tests/resolver/test_declaration.c test_resolve_sliteral_init_lacked *)
Definition test_resolve_sliteral_init_lacked := local_decl_test (new_ast AST_DECL [(new_ast AST_DECL_SPECS [(new_ast AST_TYPE_CHAR [])]); (new_ast AST_INIT_DECLOR_LIST [(new_ast AST_INIT_DECLOR [(new_ast AST_ARRAY_DECLOR [(new_identifier_ast AST_IDENT_DECLOR [97; 114; 114; 97; 121]); (new_iliteral_ast AST_INT_EXPR (new_signed IInt 10))]); (new_sliteral_ast AST_STRING_EXPR [116; 101; 115; 116; 0])])])]) None None.
Example test_resolve_sliteral_init_lacked_ok : got test_resolve_sliteral_init_lacked = Some (new_srt SRT_DECL_LIST [(new_srt SRT_INIT_DECL [(new_identifier_srt SRT_IDENT_DECL (DTYPE_ARRAY DTYPE_CHAR 10) [97; 114; 114; 97; 121]); (new_srt SRT_INIT [(new_sliteral_srt (DTYPE_ARRAY DTYPE_CHAR 10) (zero_padding_copy [116; 101; 115; 116; 0] 10))])])]). Proof. vm_compute. reflexivity. Qed.
(** tests/resolver/test_declaration.c test_resolve_sliteral_init_lacked_77 *)
Definition test_resolve_sliteral_init_lacked_77 := global_decl_test (new_ast AST_DECL [(new_ast AST_DECL_SPECS [(new_ast AST_TYPE_CHAR [])]); (new_ast AST_INIT_DECLOR_LIST [(new_ast AST_INIT_DECLOR [(new_ast AST_ARRAY_DECLOR [(new_identifier_ast AST_IDENT_DECLOR [97; 114; 114; 97; 121]); (new_iliteral_ast AST_INT_EXPR (new_signed IInt 10))]); (new_sliteral_ast AST_STRING_EXPR [116; 101; 115; 116; 0])])])]) None None.
Example test_resolve_sliteral_init_lacked_77_ok : got test_resolve_sliteral_init_lacked_77 = Some (new_srt SRT_DECL_LIST [(new_srt SRT_INIT_DECL [(new_identifier_srt SRT_IDENT_DECL (DTYPE_ARRAY DTYPE_CHAR 10) [97; 114; 114; 97; 121]); (new_srt SRT_INIT [(new_sliteral_srt (DTYPE_ARRAY DTYPE_CHAR 10) (zero_padding_copy [116; 101; 115; 116; 0] 10))])])]). Proof. vm_compute. reflexivity. Qed.
(** tests/resolver/test_declaration.c test_resolve_sliteral_init_enclosed *)
Definition test_resolve_sliteral_init_enclosed := local_decl_test (new_ast AST_DECL [(new_ast AST_DECL_SPECS [(new_ast AST_TYPE_CHAR [])]); (new_ast AST_INIT_DECLOR_LIST [(new_ast AST_INIT_DECLOR [(new_ast AST_ARRAY_DECLOR [(new_identifier_ast AST_IDENT_DECLOR [97; 114; 114; 97; 121]); (new_iliteral_ast AST_INT_EXPR (new_signed IInt 5))]); (new_ast AST_INIT_LIST [(new_sliteral_ast AST_STRING_EXPR [116; 101; 115; 116; 0])])])])]) None None.
Example test_resolve_sliteral_init_enclosed_ok : got test_resolve_sliteral_init_enclosed = Some (new_srt SRT_DECL_LIST [(new_srt SRT_INIT_DECL [(new_identifier_srt SRT_IDENT_DECL (DTYPE_ARRAY DTYPE_CHAR 5) [97; 114; 114; 97; 121]); (new_srt SRT_INIT [(new_sliteral_srt (DTYPE_ARRAY DTYPE_CHAR 5) [116; 101; 115; 116; 0])])])]). Proof. vm_compute. reflexivity. Qed.
(** tests/resolver/test_declaration.c test_resolve_sliteral_init_enclosed_79 *)
Definition test_resolve_sliteral_init_enclosed_79 := global_decl_test (new_ast AST_DECL [(new_ast AST_DECL_SPECS [(new_ast AST_TYPE_CHAR [])]); (new_ast AST_INIT_DECLOR_LIST [(new_ast AST_INIT_DECLOR [(new_ast AST_ARRAY_DECLOR [(new_identifier_ast AST_IDENT_DECLOR [97; 114; 114; 97; 121]); (new_iliteral_ast AST_INT_EXPR (new_signed IInt 5))]); (new_ast AST_INIT_LIST [(new_sliteral_ast AST_STRING_EXPR [116; 101; 115; 116; 0])])])])]) None None.
Example test_resolve_sliteral_init_enclosed_79_ok : got test_resolve_sliteral_init_enclosed_79 = Some (new_srt SRT_DECL_LIST [(new_srt SRT_INIT_DECL [(new_identifier_srt SRT_IDENT_DECL (DTYPE_ARRAY DTYPE_CHAR 5) [97; 114; 114; 97; 121]); (new_srt SRT_INIT [(new_sliteral_srt (DTYPE_ARRAY DTYPE_CHAR 5) [116; 101; 115; 116; 0])])])]). Proof. vm_compute. reflexivity. Qed.
(** tests/resolver/test_declaration.c test_resolve_array_list_init_zero *)
Definition test_resolve_array_list_init_zero := local_decl_test (new_ast AST_DECL [(new_ast AST_DECL_SPECS [(new_ast AST_TYPE_INT [])]); (new_ast AST_INIT_DECLOR_LIST [(new_ast AST_INIT_DECLOR [(new_ast AST_ARRAY_DECLOR [(new_identifier_ast AST_IDENT_DECLOR [97; 114; 114; 97; 121]); (new_iliteral_ast AST_INT_EXPR (new_signed IInt 2))]); (new_ast AST_INIT_LIST [(new_iliteral_ast AST_INT_EXPR (new_signed IInt 0))])])])]) None None.
Example test_resolve_array_list_init_zero_ok : got test_resolve_array_list_init_zero = Some (new_srt SRT_DECL_LIST [(new_srt SRT_INIT_DECL [(new_identifier_srt SRT_IDENT_DECL (DTYPE_ARRAY DTYPE_INT 2) [97; 114; 114; 97; 121]); (new_srt SRT_INIT [(new_srt SRT_INIT [(new_iliteral_srt DTYPE_INT (new_signed IInt 0))]); (new_srt SRT_INIT [(new_iliteral_srt DTYPE_INT (new_signed IInt 0))])])])]). Proof. vm_compute. reflexivity. Qed.
(** tests/resolver/test_declaration.c test_resolve_array_list_init_zero_81 *)
Definition test_resolve_array_list_init_zero_81 := global_decl_test (new_ast AST_DECL [(new_ast AST_DECL_SPECS [(new_ast AST_TYPE_INT [])]); (new_ast AST_INIT_DECLOR_LIST [(new_ast AST_INIT_DECLOR [(new_ast AST_ARRAY_DECLOR [(new_identifier_ast AST_IDENT_DECLOR [97; 114; 114; 97; 121]); (new_iliteral_ast AST_INT_EXPR (new_signed IInt 2))]); (new_ast AST_INIT_LIST [(new_iliteral_ast AST_INT_EXPR (new_signed IInt 0))])])])]) None None.
Example test_resolve_array_list_init_zero_81_ok : got test_resolve_array_list_init_zero_81 = Some (new_srt SRT_DECL_LIST [(new_srt SRT_INIT_DECL [(new_identifier_srt SRT_IDENT_DECL (DTYPE_ARRAY DTYPE_INT 2) [97; 114; 114; 97; 121]); (new_srt SRT_INIT [(new_srt SRT_INIT [(new_iliteral_srt DTYPE_INT (new_signed IInt 0))]); (new_srt SRT_INIT [(new_iliteral_srt DTYPE_INT (new_signed IInt 0))])])])]). Proof. vm_compute. reflexivity. Qed.
(** tests/resolver/test_declaration.c test_resolve_array_list_init_zero_nested *)
Definition test_resolve_array_list_init_zero_nested := local_decl_test (new_ast AST_DECL [(new_ast AST_DECL_SPECS [(new_ast AST_TYPE_INT [])]); (new_ast AST_INIT_DECLOR_LIST [(new_ast AST_INIT_DECLOR [(new_ast AST_ARRAY_DECLOR [(new_ast AST_ARRAY_DECLOR [(new_identifier_ast AST_IDENT_DECLOR [97; 114; 114; 97; 121]); (new_iliteral_ast AST_INT_EXPR (new_signed IInt 3))]); (new_iliteral_ast AST_INT_EXPR (new_signed IInt 2))]); (new_ast AST_INIT_LIST [(new_iliteral_ast AST_INT_EXPR (new_signed IInt 0))])])])]) None None.
Example test_resolve_array_list_init_zero_nested_ok : got test_resolve_array_list_init_zero_nested = Some (new_srt SRT_DECL_LIST [(new_srt SRT_INIT_DECL [(new_identifier_srt SRT_IDENT_DECL (DTYPE_ARRAY (DTYPE_ARRAY DTYPE_INT 3) 2) [97; 114; 114; 97; 121]); (new_srt SRT_INIT [(new_srt SRT_INIT [(new_srt SRT_INIT [(new_iliteral_srt DTYPE_INT (new_signed IInt 0))]); (new_srt SRT_INIT [(new_iliteral_srt DTYPE_INT (new_signed IInt 0))]); (new_srt SRT_INIT [(new_iliteral_srt DTYPE_INT (new_signed IInt 0))])]); (new_srt SRT_INIT [(new_srt SRT_INIT [(new_iliteral_srt DTYPE_INT (new_signed IInt 0))]); (new_srt SRT_INIT [(new_iliteral_srt DTYPE_INT (new_signed IInt 0))]); (new_srt SRT_INIT [(new_iliteral_srt DTYPE_INT (new_signed IInt 0))])])])])]). Proof. vm_compute. reflexivity. Qed.
(** tests/resolver/test_declaration.c test_resolve_array_list_init_zero_nested_83 *)
Definition test_resolve_array_list_init_zero_nested_83 := global_decl_test (new_ast AST_DECL [(new_ast AST_DECL_SPECS [(new_ast AST_TYPE_INT [])]); (new_ast AST_INIT_DECLOR_LIST [(new_ast AST_INIT_DECLOR [(new_ast AST_ARRAY_DECLOR [(new_ast AST_ARRAY_DECLOR [(new_identifier_ast AST_IDENT_DECLOR [97; 114; 114; 97; 121]); (new_iliteral_ast AST_INT_EXPR (new_signed IInt 3))]); (new_iliteral_ast AST_INT_EXPR (new_signed IInt 2))]); (new_ast AST_INIT_LIST [(new_iliteral_ast AST_INT_EXPR (new_signed IInt 0))])])])]) None None.
Example test_resolve_array_list_init_zero_nested_83_ok : got test_resolve_array_list_init_zero_nested_83 = Some (new_srt SRT_DECL_LIST [(new_srt SRT_INIT_DECL [(new_identifier_srt SRT_IDENT_DECL (DTYPE_ARRAY (DTYPE_ARRAY DTYPE_INT 3) 2) [97; 114; 114; 97; 121]); (new_srt SRT_INIT [(new_srt SRT_INIT [(new_srt SRT_INIT [(new_iliteral_srt DTYPE_INT (new_signed IInt 0))]); (new_srt SRT_INIT [(new_iliteral_srt DTYPE_INT (new_signed IInt 0))]); (new_srt SRT_INIT [(new_iliteral_srt DTYPE_INT (new_signed IInt 0))])]); (new_srt SRT_INIT [(new_srt SRT_INIT [(new_iliteral_srt DTYPE_INT (new_signed IInt 0))]); (new_srt SRT_INIT [(new_iliteral_srt DTYPE_INT (new_signed IInt 0))]); (new_srt SRT_INIT [(new_iliteral_srt DTYPE_INT (new_signed IInt 0))])])])])]). Proof. vm_compute. reflexivity. Qed.
(** tests/resolver/test_declaration.c test_resolve_array_list_init *)
Definition test_resolve_array_list_init := local_decl_test (new_ast AST_DECL [(new_ast AST_DECL_SPECS [(new_ast AST_TYPE_INT [])]); (new_ast AST_INIT_DECLOR_LIST [(new_ast AST_INIT_DECLOR [(new_ast AST_ARRAY_DECLOR [(new_identifier_ast AST_IDENT_DECLOR [97; 114; 114; 97; 121]); (new_iliteral_ast AST_INT_EXPR (new_signed IInt 3))]); (new_ast AST_INIT_LIST [(new_iliteral_ast AST_INT_EXPR (new_signed IInt 1)); (new_iliteral_ast AST_INT_EXPR (new_signed IInt 2)); (new_iliteral_ast AST_INT_EXPR (new_signed IInt 4))])])])]) None None.
Example test_resolve_array_list_init_ok : got test_resolve_array_list_init = Some (new_srt SRT_DECL_LIST [(new_srt SRT_INIT_DECL [(new_identifier_srt SRT_IDENT_DECL (DTYPE_ARRAY DTYPE_INT 3) [97; 114; 114; 97; 121]); (new_srt SRT_INIT [(new_srt SRT_INIT [(new_iliteral_srt DTYPE_INT (new_signed IInt 1))]); (new_srt SRT_INIT [(new_iliteral_srt DTYPE_INT (new_signed IInt 2))]); (new_srt SRT_INIT [(new_iliteral_srt DTYPE_INT (new_signed IInt 4))])])])]). Proof. vm_compute. reflexivity. Qed.
(** tests/resolver/test_declaration.c test_resolve_array_list_init_85 *)
Definition test_resolve_array_list_init_85 := global_decl_test (new_ast AST_DECL [(new_ast AST_DECL_SPECS [(new_ast AST_TYPE_INT [])]); (new_ast AST_INIT_DECLOR_LIST [(new_ast AST_INIT_DECLOR [(new_ast AST_ARRAY_DECLOR [(new_identifier_ast AST_IDENT_DECLOR [97; 114; 114; 97; 121]); (new_iliteral_ast AST_INT_EXPR (new_signed IInt 3))]); (new_ast AST_INIT_LIST [(new_iliteral_ast AST_INT_EXPR (new_signed IInt 1)); (new_iliteral_ast AST_INT_EXPR (new_signed IInt 2)); (new_iliteral_ast AST_INT_EXPR (new_signed IInt 4))])])])]) None None.
Example test_resolve_array_list_init_85_ok : got test_resolve_array_list_init_85 = Some (new_srt SRT_DECL_LIST [(new_srt SRT_INIT_DECL [(new_identifier_srt SRT_IDENT_DECL (DTYPE_ARRAY DTYPE_INT 3) [97; 114; 114; 97; 121]); (new_srt SRT_INIT [(new_srt SRT_INIT [(new_iliteral_srt DTYPE_INT (new_signed IInt 1))]); (new_srt SRT_INIT [(new_iliteral_srt DTYPE_INT (new_signed IInt 2))]); (new_srt SRT_INIT [(new_iliteral_srt DTYPE_INT (new_signed IInt 4))])])])]). Proof. vm_compute. reflexivity. Qed.
(** tests/resolver/test_declaration.c test_resolve_array_list_init_lacked *)
Definition test_resolve_array_list_init_lacked := local_decl_test (new_ast AST_DECL [(new_ast AST_DECL_SPECS [(new_ast AST_TYPE_INT [])]); (new_ast AST_INIT_DECLOR_LIST [(new_ast AST_INIT_DECLOR [(new_ast AST_ARRAY_DECLOR [(new_identifier_ast AST_IDENT_DECLOR [97; 114; 114; 97; 121]); (new_iliteral_ast AST_INT_EXPR (new_signed IInt 3))]); (new_ast AST_INIT_LIST [(new_iliteral_ast AST_INT_EXPR (new_signed IInt 2))])])])]) None None.
Example test_resolve_array_list_init_lacked_ok : got test_resolve_array_list_init_lacked = Some (new_srt SRT_DECL_LIST [(new_srt SRT_INIT_DECL [(new_identifier_srt SRT_IDENT_DECL (DTYPE_ARRAY DTYPE_INT 3) [97; 114; 114; 97; 121]); (new_srt SRT_INIT [(new_srt SRT_INIT [(new_iliteral_srt DTYPE_INT (new_signed IInt 2))]); (new_srt SRT_INIT [(new_iliteral_srt DTYPE_INT (new_signed IInt 0))]); (new_srt SRT_INIT [(new_iliteral_srt DTYPE_INT (new_signed IInt 0))])])])]). Proof. vm_compute. reflexivity. Qed.
(** tests/resolver/test_declaration.c test_resolve_array_list_init_lacked_87 *)
Definition test_resolve_array_list_init_lacked_87 := global_decl_test (new_ast AST_DECL [(new_ast AST_DECL_SPECS [(new_ast AST_TYPE_INT [])]); (new_ast AST_INIT_DECLOR_LIST [(new_ast AST_INIT_DECLOR [(new_ast AST_ARRAY_DECLOR [(new_identifier_ast AST_IDENT_DECLOR [97; 114; 114; 97; 121]); (new_iliteral_ast AST_INT_EXPR (new_signed IInt 3))]); (new_ast AST_INIT_LIST [(new_iliteral_ast AST_INT_EXPR (new_signed IInt 2))])])])]) None None.
Example test_resolve_array_list_init_lacked_87_ok : got test_resolve_array_list_init_lacked_87 = Some (new_srt SRT_DECL_LIST [(new_srt SRT_INIT_DECL [(new_identifier_srt SRT_IDENT_DECL (DTYPE_ARRAY DTYPE_INT 3) [97; 114; 114; 97; 121]); (new_srt SRT_INIT [(new_srt SRT_INIT [(new_iliteral_srt DTYPE_INT (new_signed IInt 2))]); (new_srt SRT_INIT [(new_iliteral_srt DTYPE_INT (new_signed IInt 0))]); (new_srt SRT_INIT [(new_iliteral_srt DTYPE_INT (new_signed IInt 0))])])])]). Proof. vm_compute. reflexivity. Qed.
(** tests/resolver/test_declaration.c test_resolve_array_list_init_nested *)
Definition test_resolve_array_list_init_nested := local_decl_test (new_ast AST_DECL [(new_ast AST_DECL_SPECS [(new_ast AST_TYPE_INT [])]); (new_ast AST_INIT_DECLOR_LIST [(new_ast AST_INIT_DECLOR [(new_ast AST_ARRAY_DECLOR [(new_ast AST_ARRAY_DECLOR [(new_identifier_ast AST_IDENT_DECLOR [97; 114; 114; 97; 121]); (new_iliteral_ast AST_INT_EXPR (new_signed IInt 3))]); (new_iliteral_ast AST_INT_EXPR (new_signed IInt 2))]); (new_ast AST_INIT_LIST [(new_ast AST_INIT_LIST [(new_iliteral_ast AST_INT_EXPR (new_signed IInt 1)); (new_iliteral_ast AST_INT_EXPR (new_signed IInt 2)); (new_iliteral_ast AST_INT_EXPR (new_signed IInt 3))]); (new_ast AST_INIT_LIST [(new_iliteral_ast AST_INT_EXPR (new_signed IInt 4)); (new_iliteral_ast AST_INT_EXPR (new_signed IInt 5)); (new_iliteral_ast AST_INT_EXPR (new_signed IInt 6))])])])])]) None None.
Example test_resolve_array_list_init_nested_ok : got test_resolve_array_list_init_nested = Some (new_srt SRT_DECL_LIST [(new_srt SRT_INIT_DECL [(new_identifier_srt SRT_IDENT_DECL (DTYPE_ARRAY (DTYPE_ARRAY DTYPE_INT 3) 2) [97; 114; 114; 97; 121]); (new_srt SRT_INIT [(new_srt SRT_INIT [(new_srt SRT_INIT [(new_iliteral_srt DTYPE_INT (new_signed IInt 1))]); (new_srt SRT_INIT [(new_iliteral_srt DTYPE_INT (new_signed IInt 2))]); (new_srt SRT_INIT [(new_iliteral_srt DTYPE_INT (new_signed IInt 3))])]); (new_srt SRT_INIT [(new_srt SRT_INIT [(new_iliteral_srt DTYPE_INT (new_signed IInt 4))]); (new_srt SRT_INIT [(new_iliteral_srt DTYPE_INT (new_signed IInt 5))]); (new_srt SRT_INIT [(new_iliteral_srt DTYPE_INT (new_signed IInt 6))])])])])]). Proof. vm_compute. reflexivity. Qed.
(** tests/resolver/test_declaration.c test_resolve_array_list_init_nested_89 *)
Definition test_resolve_array_list_init_nested_89 := global_decl_test (new_ast AST_DECL [(new_ast AST_DECL_SPECS [(new_ast AST_TYPE_INT [])]); (new_ast AST_INIT_DECLOR_LIST [(new_ast AST_INIT_DECLOR [(new_ast AST_ARRAY_DECLOR [(new_ast AST_ARRAY_DECLOR [(new_identifier_ast AST_IDENT_DECLOR [97; 114; 114; 97; 121]); (new_iliteral_ast AST_INT_EXPR (new_signed IInt 3))]); (new_iliteral_ast AST_INT_EXPR (new_signed IInt 2))]); (new_ast AST_INIT_LIST [(new_ast AST_INIT_LIST [(new_iliteral_ast AST_INT_EXPR (new_signed IInt 1)); (new_iliteral_ast AST_INT_EXPR (new_signed IInt 2)); (new_iliteral_ast AST_INT_EXPR (new_signed IInt 3))]); (new_ast AST_INIT_LIST [(new_iliteral_ast AST_INT_EXPR (new_signed IInt 4)); (new_iliteral_ast AST_INT_EXPR (new_signed IInt 5)); (new_iliteral_ast AST_INT_EXPR (new_signed IInt 6))])])])])]) None None.
Example test_resolve_array_list_init_nested_89_ok : got test_resolve_array_list_init_nested_89 = Some (new_srt SRT_DECL_LIST [(new_srt SRT_INIT_DECL [(new_identifier_srt SRT_IDENT_DECL (DTYPE_ARRAY (DTYPE_ARRAY DTYPE_INT 3) 2) [97; 114; 114; 97; 121]); (new_srt SRT_INIT [(new_srt SRT_INIT [(new_srt SRT_INIT [(new_iliteral_srt DTYPE_INT (new_signed IInt 1))]); (new_srt SRT_INIT [(new_iliteral_srt DTYPE_INT (new_signed IInt 2))]); (new_srt SRT_INIT [(new_iliteral_srt DTYPE_INT (new_signed IInt 3))])]); (new_srt SRT_INIT [(new_srt SRT_INIT [(new_iliteral_srt DTYPE_INT (new_signed IInt 4))]); (new_srt SRT_INIT [(new_iliteral_srt DTYPE_INT (new_signed IInt 5))]); (new_srt SRT_INIT [(new_iliteral_srt DTYPE_INT (new_signed IInt 6))])])])])]). Proof. vm_compute. reflexivity. Qed.
(** tests/resolver/test_declaration.c test_resolve_array_list_init_nested_lacked *)
Definition test_resolve_array_list_init_nested_lacked := local_decl_test (new_ast AST_DECL [(new_ast AST_DECL_SPECS [(new_ast AST_TYPE_INT [])]); (new_ast AST_INIT_DECLOR_LIST [(new_ast AST_INIT_DECLOR [(new_ast AST_ARRAY_DECLOR [(new_ast AST_ARRAY_DECLOR [(new_identifier_ast AST_IDENT_DECLOR [97; 114; 114; 97; 121]); (new_iliteral_ast AST_INT_EXPR (new_signed IInt 3))]); (new_iliteral_ast AST_INT_EXPR (new_signed IInt 2))]); (new_ast AST_INIT_LIST [(new_ast AST_INIT_LIST [(new_iliteral_ast AST_INT_EXPR (new_signed IInt 9)); (new_iliteral_ast AST_INT_EXPR (new_signed IInt 5)); (new_iliteral_ast AST_INT_EXPR (new_signed IInt 1))])])])])]) None None.
Example test_resolve_array_list_init_nested_lacked_ok : got test_resolve_array_list_init_nested_lacked = Some (new_srt SRT_DECL_LIST [(new_srt SRT_INIT_DECL [(new_identifier_srt SRT_IDENT_DECL (DTYPE_ARRAY (DTYPE_ARRAY DTYPE_INT 3) 2) [97; 114; 114; 97; 121]); (new_srt SRT_INIT [(new_srt SRT_INIT [(new_srt SRT_INIT [(new_iliteral_srt DTYPE_INT (new_signed IInt 9))]); (new_srt SRT_INIT [(new_iliteral_srt DTYPE_INT (new_signed IInt 5))]); (new_srt SRT_INIT [(new_iliteral_srt DTYPE_INT (new_signed IInt 1))])]); (new_srt SRT_INIT [(new_srt SRT_INIT [(new_iliteral_srt DTYPE_INT (new_signed IInt 0))]); (new_srt SRT_INIT [(new_iliteral_srt DTYPE_INT (new_signed IInt 0))]); (new_srt SRT_INIT [(new_iliteral_srt DTYPE_INT (new_signed IInt 0))])])])])]). Proof. vm_compute. reflexivity. Qed.
(** tests/resolver/test_declaration.c test_resolve_array_list_init_nested_lacked_91 *)
Definition test_resolve_array_list_init_nested_lacked_91 := global_decl_test (new_ast AST_DECL [(new_ast AST_DECL_SPECS [(new_ast AST_TYPE_INT [])]); (new_ast AST_INIT_DECLOR_LIST [(new_ast AST_INIT_DECLOR [(new_ast AST_ARRAY_DECLOR [(new_ast AST_ARRAY_DECLOR [(new_identifier_ast AST_IDENT_DECLOR [97; 114; 114; 97; 121]); (new_iliteral_ast AST_INT_EXPR (new_signed IInt 3))]); (new_iliteral_ast AST_INT_EXPR (new_signed IInt 2))]); (new_ast AST_INIT_LIST [(new_ast AST_INIT_LIST [(new_iliteral_ast AST_INT_EXPR (new_signed IInt 9)); (new_iliteral_ast AST_INT_EXPR (new_signed IInt 5)); (new_iliteral_ast AST_INT_EXPR (new_signed IInt 1))])])])])]) None None.
Example test_resolve_array_list_init_nested_lacked_91_ok : got test_resolve_array_list_init_nested_lacked_91 = Some (new_srt SRT_DECL_LIST [(new_srt SRT_INIT_DECL [(new_identifier_srt SRT_IDENT_DECL (DTYPE_ARRAY (DTYPE_ARRAY DTYPE_INT 3) 2) [97; 114; 114; 97; 121]); (new_srt SRT_INIT [(new_srt SRT_INIT [(new_srt SRT_INIT [(new_iliteral_srt DTYPE_INT (new_signed IInt 9))]); (new_srt SRT_INIT [(new_iliteral_srt DTYPE_INT (new_signed IInt 5))]); (new_srt SRT_INIT [(new_iliteral_srt DTYPE_INT (new_signed IInt 1))])]); (new_srt SRT_INIT [(new_srt SRT_INIT [(new_iliteral_srt DTYPE_INT (new_signed IInt 0))]); (new_srt SRT_INIT [(new_iliteral_srt DTYPE_INT (new_signed IInt 0))]); (new_srt SRT_INIT [(new_iliteral_srt DTYPE_INT (new_signed IInt 0))])])])])]). Proof. vm_compute. reflexivity. Qed.
(** tests/resolver/test_declaration.c test_resolve_array_list_init_flatten *)
Definition test_resolve_array_list_init_flatten := local_decl_test (new_ast AST_DECL [(new_ast AST_DECL_SPECS [(new_ast AST_TYPE_INT [])]); (new_ast AST_INIT_DECLOR_LIST [(new_ast AST_INIT_DECLOR [(new_ast AST_ARRAY_DECLOR [(new_ast AST_ARRAY_DECLOR [(new_identifier_ast AST_IDENT_DECLOR [97; 114; 114; 97; 121]); (new_iliteral_ast AST_INT_EXPR (new_signed IInt 3))]); (new_iliteral_ast AST_INT_EXPR (new_signed IInt 2))]); (new_ast AST_INIT_LIST [(new_iliteral_ast AST_INT_EXPR (new_signed IInt 6)); (new_iliteral_ast AST_INT_EXPR (new_signed IInt 1))])])])]) None None.
Example test_resolve_array_list_init_flatten_ok : got test_resolve_array_list_init_flatten = Some (new_srt SRT_DECL_LIST [(new_srt SRT_INIT_DECL [(new_identifier_srt SRT_IDENT_DECL (DTYPE_ARRAY (DTYPE_ARRAY DTYPE_INT 3) 2) [97; 114; 114; 97; 121]); (new_srt SRT_INIT [(new_srt SRT_INIT [(new_srt SRT_INIT [(new_iliteral_srt DTYPE_INT (new_signed IInt 6))]); (new_srt SRT_INIT [(new_iliteral_srt DTYPE_INT (new_signed IInt 1))]); (new_srt SRT_INIT [(new_iliteral_srt DTYPE_INT (new_signed IInt 0))])]); (new_srt SRT_INIT [(new_srt SRT_INIT [(new_iliteral_srt DTYPE_INT (new_signed IInt 0))]); (new_srt SRT_INIT [(new_iliteral_srt DTYPE_INT (new_signed IInt 0))]); (new_srt SRT_INIT [(new_iliteral_srt DTYPE_INT (new_signed IInt 0))])])])])]). Proof. vm_compute. reflexivity. Qed.
(** tests/resolver/test_declaration.c test_resolve_array_list_init_flatten_93 *)
Definition test_resolve_array_list_init_flatten_93 := global_decl_test (new_ast AST_DECL [(new_ast AST_DECL_SPECS [(new_ast AST_TYPE_INT [])]); (new_ast AST_INIT_DECLOR_LIST [(new_ast AST_INIT_DECLOR [(new_ast AST_ARRAY_DECLOR [(new_ast AST_ARRAY_DECLOR [(new_identifier_ast AST_IDENT_DECLOR [97; 114; 114; 97; 121]); (new_iliteral_ast AST_INT_EXPR (new_signed IInt 3))]); (new_iliteral_ast AST_INT_EXPR (new_signed IInt 2))]); (new_ast AST_INIT_LIST [(new_iliteral_ast AST_INT_EXPR (new_signed IInt 6)); (new_iliteral_ast AST_INT_EXPR (new_signed IInt 1))])])])]) None None.
Example test_resolve_array_list_init_flatten_93_ok : got test_resolve_array_list_init_flatten_93 = Some (new_srt SRT_DECL_LIST [(new_srt SRT_INIT_DECL [(new_identifier_srt SRT_IDENT_DECL (DTYPE_ARRAY (DTYPE_ARRAY DTYPE_INT 3) 2) [97; 114; 114; 97; 121]); (new_srt SRT_INIT [(new_srt SRT_INIT [(new_srt SRT_INIT [(new_iliteral_srt DTYPE_INT (new_signed IInt 6))]); (new_srt SRT_INIT [(new_iliteral_srt DTYPE_INT (new_signed IInt 1))]); (new_srt SRT_INIT [(new_iliteral_srt DTYPE_INT (new_signed IInt 0))])]); (new_srt SRT_INIT [(new_srt SRT_INIT [(new_iliteral_srt DTYPE_INT (new_signed IInt 0))]); (new_srt SRT_INIT [(new_iliteral_srt DTYPE_INT (new_signed IInt 0))]); (new_srt SRT_INIT [(new_iliteral_srt DTYPE_INT (new_signed IInt 0))])])])])]). Proof. vm_compute. reflexivity. Qed.
(** tests/resolver/test_declaration.c test_resolve_array_list_init_mix *)
Definition test_resolve_array_list_init_mix := local_decl_test (new_ast AST_DECL [(new_ast AST_DECL_SPECS [(new_ast AST_TYPE_INT [])]); (new_ast AST_INIT_DECLOR_LIST [(new_ast AST_INIT_DECLOR [(new_ast AST_ARRAY_DECLOR [(new_ast AST_ARRAY_DECLOR [(new_identifier_ast AST_IDENT_DECLOR [97; 114; 114; 97; 121]); (new_iliteral_ast AST_INT_EXPR (new_signed IInt 2))]); (new_iliteral_ast AST_INT_EXPR (new_signed IInt 3))]); (new_ast AST_INIT_LIST [(new_iliteral_ast AST_INT_EXPR (new_signed IInt 1)); (new_iliteral_ast AST_INT_EXPR (new_signed IInt 3)); (new_ast AST_INIT_LIST [(new_ast AST_INIT_LIST [(new_iliteral_ast AST_INT_EXPR (new_signed IInt 5))])])])])])]) None None.
Example test_resolve_array_list_init_mix_ok : got test_resolve_array_list_init_mix = Some (new_srt SRT_DECL_LIST [(new_srt SRT_INIT_DECL [(new_identifier_srt SRT_IDENT_DECL (DTYPE_ARRAY (DTYPE_ARRAY DTYPE_INT 2) 3) [97; 114; 114; 97; 121]); (new_srt SRT_INIT [(new_srt SRT_INIT [(new_srt SRT_INIT [(new_iliteral_srt DTYPE_INT (new_signed IInt 1))]); (new_srt SRT_INIT [(new_iliteral_srt DTYPE_INT (new_signed IInt 3))])]); (new_srt SRT_INIT [(new_srt SRT_INIT [(new_iliteral_srt DTYPE_INT (new_signed IInt 5))]); (new_srt SRT_INIT [(new_iliteral_srt DTYPE_INT (new_signed IInt 0))])]); (new_srt SRT_INIT [(new_srt SRT_INIT [(new_iliteral_srt DTYPE_INT (new_signed IInt 0))]); (new_srt SRT_INIT [(new_iliteral_srt DTYPE_INT (new_signed IInt 0))])])])])]). Proof. vm_compute. reflexivity. Qed.
(** tests/resolver/test_declaration.c test_resolve_array_list_init_mix_95 *)
Definition test_resolve_array_list_init_mix_95 := global_decl_test (new_ast AST_DECL [(new_ast AST_DECL_SPECS [(new_ast AST_TYPE_INT [])]); (new_ast AST_INIT_DECLOR_LIST [(new_ast AST_INIT_DECLOR [(new_ast AST_ARRAY_DECLOR [(new_ast AST_ARRAY_DECLOR [(new_identifier_ast AST_IDENT_DECLOR [97; 114; 114; 97; 121]); (new_iliteral_ast AST_INT_EXPR (new_signed IInt 2))]); (new_iliteral_ast AST_INT_EXPR (new_signed IInt 3))]); (new_ast AST_INIT_LIST [(new_iliteral_ast AST_INT_EXPR (new_signed IInt 1)); (new_iliteral_ast AST_INT_EXPR (new_signed IInt 3)); (new_ast AST_INIT_LIST [(new_ast AST_INIT_LIST [(new_iliteral_ast AST_INT_EXPR (new_signed IInt 5))])])])])])]) None None.
Example test_resolve_array_list_init_mix_95_ok : got test_resolve_array_list_init_mix_95 = Some (new_srt SRT_DECL_LIST [(new_srt SRT_INIT_DECL [(new_identifier_srt SRT_IDENT_DECL (DTYPE_ARRAY (DTYPE_ARRAY DTYPE_INT 2) 3) [97; 114; 114; 97; 121]); (new_srt SRT_INIT [(new_srt SRT_INIT [(new_srt SRT_INIT [(new_iliteral_srt DTYPE_INT (new_signed IInt 1))]); (new_srt SRT_INIT [(new_iliteral_srt DTYPE_INT (new_signed IInt 3))])]); (new_srt SRT_INIT [(new_srt SRT_INIT [(new_iliteral_srt DTYPE_INT (new_signed IInt 5))]); (new_srt SRT_INIT [(new_iliteral_srt DTYPE_INT (new_signed IInt 0))])]); (new_srt SRT_INIT [(new_srt SRT_INIT [(new_iliteral_srt DTYPE_INT (new_signed IInt 0))]); (new_srt SRT_INIT [(new_iliteral_srt DTYPE_INT (new_signed IInt 0))])])])])]). Proof. vm_compute. reflexivity. Qed.
(** tests/resolver/test_declaration.c test_resolve_struct_list_init_zero *)
Definition test_resolve_struct_list_init_zero := local_decl_test (new_ast AST_DECL [(new_ast AST_DECL_SPECS [(new_ast AST_TYPE_STRUCT [(new_identifier_ast AST_STRUCT_NAME [83; 116; 114; 117; 99; 116])])]); (new_ast AST_INIT_DECLOR_LIST [(new_ast AST_INIT_DECLOR [(new_identifier_ast AST_IDENT_DECLOR [115; 116; 114; 117; 99; 116; 117; 114; 101]); (new_ast AST_INIT_LIST [(new_iliteral_ast AST_INT_EXPR (new_signed IInt 0))])])])]) None (Some [(fun t => tag_define_struct t [83; 116; 114; 117; 99; 116] [([120], DTYPE_CHAR); ([121], DTYPE_INT)])]).
Example test_resolve_struct_list_init_zero_ok : got test_resolve_struct_list_init_zero = Some (new_srt SRT_DECL_LIST [(new_srt SRT_INIT_DECL [(new_identifier_srt SRT_IDENT_DECL (DTYPE_NSTRUCT [83; 116; 114; 117; 99; 116] 8 4) [115; 116; 114; 117; 99; 116; 117; 114; 101]); (new_srt SRT_INIT [(new_srt SRT_INIT [(new_dtyped_srt SRT_CAST_EXPR DTYPE_CHAR [(new_iliteral_srt DTYPE_INT (new_signed IInt 0))])]); (new_srt SRT_INIT [(new_iliteral_srt DTYPE_INT (new_signed IInt 0))])])])]). Proof. vm_compute. reflexivity. Qed.
(** tests/resolver/test_declaration.c test_resolve_struct_list_init_zero_97 *)
Definition test_resolve_struct_list_init_zero_97 := global_decl_test (new_ast AST_DECL [(new_ast AST_DECL_SPECS [(new_ast AST_TYPE_STRUCT [(new_identifier_ast AST_STRUCT_NAME [83; 116; 114; 117; 99; 116])])]); (new_ast AST_INIT_DECLOR_LIST [(new_ast AST_INIT_DECLOR [(new_identifier_ast AST_IDENT_DECLOR [115; 116; 114; 117; 99; 116; 117; 114; 101]); (new_ast AST_INIT_LIST [(new_iliteral_ast AST_INT_EXPR (new_signed IInt 0))])])])]) None (Some [(fun t => tag_define_struct t [83; 116; 114; 117; 99; 116] [([120], DTYPE_CHAR); ([121], DTYPE_INT)])]).
Example test_resolve_struct_list_init_zero_97_ok : got test_resolve_struct_list_init_zero_97 = Some (new_srt SRT_DECL_LIST [(new_srt SRT_INIT_DECL [(new_identifier_srt SRT_IDENT_DECL (DTYPE_NSTRUCT [83; 116; 114; 117; 99; 116] 8 4) [115; 116; 114; 117; 99; 116; 117; 114; 101]); (new_srt SRT_INIT [(new_srt SRT_INIT [(new_dtyped_srt SRT_CAST_EXPR DTYPE_CHAR [(new_iliteral_srt DTYPE_INT (new_signed IInt 0))])]); (new_srt SRT_INIT [(new_iliteral_srt DTYPE_INT (new_signed IInt 0))])])])]). Proof. vm_compute. reflexivity. Qed.
(** tests/resolver/test_declaration.c test_resolve_struct_list_init_zero_nested *)
Definition test_resolve_struct_list_init_zero_nested := local_decl_test (new_ast AST_DECL [(new_ast AST_DECL_SPECS [(new_ast AST_TYPE_STRUCT [(new_identifier_ast AST_STRUCT_NAME [83; 116; 114; 117; 99; 116])])]); (new_ast AST_INIT_DECLOR_LIST [(new_ast AST_INIT_DECLOR [(new_identifier_ast AST_IDENT_DECLOR [115; 116; 114; 117; 99; 116; 117; 114; 101]); (new_ast AST_INIT_LIST [(new_iliteral_ast AST_INT_EXPR (new_signed IInt 0))])])])]) None (Some [(fun t => tag_define_struct t [67; 104; 105; 108; 100] [([120], DTYPE_CHAR); ([121], DTYPE_INT); ([122], DTYPE_CHAR)]); (fun t => tag_define_struct t [83; 116; 114; 117; 99; 116] [([102; 105; 114; 115; 116], (DTYPE_NSTRUCT [67; 104; 105; 108; 100] 12 4)); ([115; 101; 99; 111; 110; 100], (DTYPE_NSTRUCT [67; 104; 105; 108; 100] 12 4))])]).
Example test_resolve_struct_list_init_zero_nested_ok : got test_resolve_struct_list_init_zero_nested = Some (new_srt SRT_DECL_LIST [(new_srt SRT_INIT_DECL [(new_identifier_srt SRT_IDENT_DECL (DTYPE_NSTRUCT [83; 116; 114; 117; 99; 116] 24 4) [115; 116; 114; 117; 99; 116; 117; 114; 101]); (new_srt SRT_INIT [(new_srt SRT_INIT [(new_srt SRT_INIT [(new_dtyped_srt SRT_CAST_EXPR DTYPE_CHAR [(new_iliteral_srt DTYPE_INT (new_signed IInt 0))])]); (new_srt SRT_INIT [(new_iliteral_srt DTYPE_INT (new_signed IInt 0))]); (new_srt SRT_INIT [(new_dtyped_srt SRT_CAST_EXPR DTYPE_CHAR [(new_iliteral_srt DTYPE_INT (new_signed IInt 0))])])]); (new_srt SRT_INIT [(new_srt SRT_INIT [(new_dtyped_srt SRT_CAST_EXPR DTYPE_CHAR [(new_iliteral_srt DTYPE_INT (new_signed IInt 0))])]); (new_srt SRT_INIT [(new_iliteral_srt DTYPE_INT (new_signed IInt 0))]); (new_srt SRT_INIT [(new_dtyped_srt SRT_CAST_EXPR DTYPE_CHAR [(new_iliteral_srt DTYPE_INT (new_signed IInt 0))])])])])])]). Proof. vm_compute. reflexivity. Qed.
(** tests/resolver/test_declaration.c test_resolve_struct_list_init_zero_nested_99 *)
Definition test_resolve_struct_list_init_zero_nested_99 := global_decl_test (new_ast AST_DECL [(new_ast AST_DECL_SPECS [(new_ast AST_TYPE_STRUCT [(new_identifier_ast AST_STRUCT_NAME [83; 116; 114; 117; 99; 116])])]); (new_ast AST_INIT_DECLOR_LIST [(new_ast AST_INIT_DECLOR [(new_identifier_ast AST_IDENT_DECLOR [115; 116; 114; 117; 99; 116; 117; 114; 101]); (new_ast AST_INIT_LIST [(new_iliteral_ast AST_INT_EXPR (new_signed IInt 0))])])])]) None (Some [(fun t => tag_define_struct t [67; 104; 105; 108; 100] [([120], DTYPE_CHAR); ([121], DTYPE_INT); ([122], DTYPE_CHAR)]); (fun t => tag_define_struct t [83; 116; 114; 117; 99; 116] [([102; 105; 114; 115; 116], (DTYPE_NSTRUCT [67; 104; 105; 108; 100] 12 4)); ([115; 101; 99; 111; 110; 100], (DTYPE_NSTRUCT [67; 104; 105; 108; 100] 12 4))])]).
Example test_resolve_struct_list_init_zero_nested_99_ok : got test_resolve_struct_list_init_zero_nested_99 = Some (new_srt SRT_DECL_LIST [(new_srt SRT_INIT_DECL [(new_identifier_srt SRT_IDENT_DECL (DTYPE_NSTRUCT [83; 116; 114; 117; 99; 116] 24 4) [115; 116; 114; 117; 99; 116; 117; 114; 101]); (new_srt SRT_INIT [(new_srt SRT_INIT [(new_srt SRT_INIT [(new_dtyped_srt SRT_CAST_EXPR DTYPE_CHAR [(new_iliteral_srt DTYPE_INT (new_signed IInt 0))])]); (new_srt SRT_INIT [(new_iliteral_srt DTYPE_INT (new_signed IInt 0))]); (new_srt SRT_INIT [(new_dtyped_srt SRT_CAST_EXPR DTYPE_CHAR [(new_iliteral_srt DTYPE_INT (new_signed IInt 0))])])]); (new_srt SRT_INIT [(new_srt SRT_INIT [(new_dtyped_srt SRT_CAST_EXPR DTYPE_CHAR [(new_iliteral_srt DTYPE_INT (new_signed IInt 0))])]); (new_srt SRT_INIT [(new_iliteral_srt DTYPE_INT (new_signed IInt 0))]); (new_srt SRT_INIT [(new_dtyped_srt SRT_CAST_EXPR DTYPE_CHAR [(new_iliteral_srt DTYPE_INT (new_signed IInt 0))])])])])])]). Proof. vm_compute. reflexivity. Qed.
(** tests/resolver/test_declaration.c test_resolve_struct_list_init *)
Definition test_resolve_struct_list_init := local_decl_test (new_ast AST_DECL [(new_ast AST_DECL_SPECS [(new_ast AST_TYPE_STRUCT [(new_ast AST_STRUCT_DECL_LIST [(new_ast AST_STRUCT_DECL [(new_ast AST_SPEC_QUAL_LIST [(new_ast AST_TYPE_CHAR [])]); (new_ast AST_STRUCT_DECLOR_LIST [(new_identifier_ast AST_IDENT_DECLOR [120])])]); (new_ast AST_STRUCT_DECL [(new_ast AST_SPEC_QUAL_LIST [(new_ast AST_TYPE_INT [])]); (new_ast AST_STRUCT_DECLOR_LIST [(new_identifier_ast AST_IDENT_DECLOR [121])])]); (new_ast AST_STRUCT_DECL [(new_ast AST_SPEC_QUAL_LIST [(new_ast AST_TYPE_CHAR [])]); (new_ast AST_STRUCT_DECLOR_LIST [(new_identifier_ast AST_IDENT_DECLOR [122])])])])])]); (new_ast AST_INIT_DECLOR_LIST [(new_ast AST_INIT_DECLOR [(new_identifier_ast AST_IDENT_DECLOR [115; 116; 114; 117; 99; 116; 117; 114; 101]); (new_ast AST_INIT_LIST [(new_iliteral_ast AST_INT_EXPR (new_signed IInt 1)); (new_iliteral_ast AST_INT_EXPR (new_signed IInt 2)); (new_iliteral_ast AST_INT_EXPR (new_signed IInt 4))])])])]) None None.
Example test_resolve_struct_list_init_ok : got test_resolve_struct_list_init = Some (new_srt SRT_DECL_LIST [(new_srt SRT_INIT_DECL [(new_identifier_srt SRT_IDENT_DECL (ust [([120], DTYPE_CHAR); ([121], DTYPE_INT); ([122], DTYPE_CHAR)]) [115; 116; 114; 117; 99; 116; 117; 114; 101]); (new_srt SRT_INIT [(new_srt SRT_INIT [(new_dtyped_srt SRT_CAST_EXPR DTYPE_CHAR [(new_iliteral_srt DTYPE_INT (new_signed IInt 1))])]); (new_srt SRT_INIT [(new_iliteral_srt DTYPE_INT (new_signed IInt 2))]); (new_srt SRT_INIT [(new_dtyped_srt SRT_CAST_EXPR DTYPE_CHAR [(new_iliteral_srt DTYPE_INT (new_signed IInt 4))])])])])]). Proof. vm_compute. reflexivity. Qed.
(** tests/resolver/test_declaration.c test_resolve_struct_list_init_101 *)
Definition test_resolve_struct_list_init_101 := global_decl_test (new_ast AST_DECL [(new_ast AST_DECL_SPECS [(new_ast AST_TYPE_STRUCT [(new_ast AST_STRUCT_DECL_LIST [(new_ast AST_STRUCT_DECL [(new_ast AST_SPEC_QUAL_LIST [(new_ast AST_TYPE_CHAR [])]); (new_ast AST_STRUCT_DECLOR_LIST [(new_identifier_ast AST_IDENT_DECLOR [120])])]); (new_ast AST_STRUCT_DECL [(new_ast AST_SPEC_QUAL_LIST [(new_ast AST_TYPE_INT [])]); (new_ast AST_STRUCT_DECLOR_LIST [(new_identifier_ast AST_IDENT_DECLOR [121])])]); (new_ast AST_STRUCT_DECL [(new_ast AST_SPEC_QUAL_LIST [(new_ast AST_TYPE_CHAR [])]); (new_ast AST_STRUCT_DECLOR_LIST [(new_identifier_ast AST_IDENT_DECLOR [122])])])])])]); (new_ast AST_INIT_DECLOR_LIST [(new_ast AST_INIT_DECLOR [(new_identifier_ast AST_IDENT_DECLOR [115; 116; 114; 117; 99; 116; 117; 114; 101]); (new_ast AST_INIT_LIST [(new_iliteral_ast AST_INT_EXPR (new_signed IInt 1)); (new_iliteral_ast AST_INT_EXPR (new_signed IInt 2)); (new_iliteral_ast AST_INT_EXPR (new_signed IInt 4))])])])]) None None.
Example test_resolve_struct_list_init_101_ok : got test_resolve_struct_list_init_101 = Some (new_srt SRT_DECL_LIST [(new_srt SRT_INIT_DECL [(new_identifier_srt SRT_IDENT_DECL (ust [([120], DTYPE_CHAR); ([121], DTYPE_INT); ([122], DTYPE_CHAR)]) [115; 116; 114; 117; 99; 116; 117; 114; 101]); (new_srt SRT_INIT [(new_srt SRT_INIT [(new_dtyped_srt SRT_CAST_EXPR DTYPE_CHAR [(new_iliteral_srt DTYPE_INT (new_signed IInt 1))])]); (new_srt SRT_INIT [(new_iliteral_srt DTYPE_INT (new_signed IInt 2))]); (new_srt SRT_INIT [(new_dtyped_srt SRT_CAST_EXPR DTYPE_CHAR [(new_iliteral_srt DTYPE_INT (new_signed IInt 4))])])])])]). Proof. vm_compute. reflexivity. Qed.
(** tests/resolver/test_declaration.c test_resolve_struct_list_init_lacked *)
Definition test_resolve_struct_list_init_lacked := local_decl_test (new_ast AST_DECL [(new_ast AST_DECL_SPECS [(new_ast AST_TYPE_STRUCT [(new_identifier_ast AST_STRUCT_NAME [83; 116; 114; 117; 99; 116])])]); (new_ast AST_INIT_DECLOR_LIST [(new_ast AST_INIT_DECLOR [(new_identifier_ast AST_IDENT_DECLOR [115; 116; 114; 117; 99; 116; 117; 114; 101]); (new_ast AST_INIT_LIST [(new_iliteral_ast AST_INT_EXPR (new_signed IInt 3)); (new_iliteral_ast AST_INT_EXPR (new_signed IInt 2))])])])]) None (Some [(fun t => tag_define_struct t [83; 116; 114; 117; 99; 116] [([120], DTYPE_CHAR); ([121], DTYPE_INT); ([122], (DTYPE_POINTER DTYPE_CHAR))])]).
Example test_resolve_struct_list_init_lacked_ok : got test_resolve_struct_list_init_lacked = Some (new_srt SRT_DECL_LIST [(new_srt SRT_INIT_DECL [(new_identifier_srt SRT_IDENT_DECL (DTYPE_NSTRUCT [83; 116; 114; 117; 99; 116] 16 8) [115; 116; 114; 117; 99; 116; 117; 114; 101]); (new_srt SRT_INIT [(new_srt SRT_INIT [(new_dtyped_srt SRT_CAST_EXPR DTYPE_CHAR [(new_iliteral_srt DTYPE_INT (new_signed IInt 3))])]); (new_srt SRT_INIT [(new_iliteral_srt DTYPE_INT (new_signed IInt 2))]); (new_srt SRT_INIT [(new_dtyped_srt SRT_CAST_EXPR (DTYPE_POINTER DTYPE_CHAR) [(new_iliteral_srt DTYPE_INT (new_signed IInt 0))])])])])]). Proof. vm_compute. reflexivity. Qed.
(** tests/resolver/test_declaration.c test_resolve_struct_list_init_lacked_103 *)
Definition test_resolve_struct_list_init_lacked_103 := global_decl_test (new_ast AST_DECL [(new_ast AST_DECL_SPECS [(new_ast AST_TYPE_STRUCT [(new_identifier_ast AST_STRUCT_NAME [83; 116; 114; 117; 99; 116])])]); (new_ast AST_INIT_DECLOR_LIST [(new_ast AST_INIT_DECLOR [(new_identifier_ast AST_IDENT_DECLOR [115; 116; 114; 117; 99; 116; 117; 114; 101]); (new_ast AST_INIT_LIST [(new_iliteral_ast AST_INT_EXPR (new_signed IInt 3)); (new_iliteral_ast AST_INT_EXPR (new_signed IInt 2))])])])]) None (Some [(fun t => tag_define_struct t [83; 116; 114; 117; 99; 116] [([120], DTYPE_CHAR); ([121], DTYPE_INT); ([122], (DTYPE_POINTER DTYPE_CHAR))])]).
Example test_resolve_struct_list_init_lacked_103_ok : got test_resolve_struct_list_init_lacked_103 = Some (new_srt SRT_DECL_LIST [(new_srt SRT_INIT_DECL [(new_identifier_srt SRT_IDENT_DECL (DTYPE_NSTRUCT [83; 116; 114; 117; 99; 116] 16 8) [115; 116; 114; 117; 99; 116; 117; 114; 101]); (new_srt SRT_INIT [(new_srt SRT_INIT [(new_dtyped_srt SRT_CAST_EXPR DTYPE_CHAR [(new_iliteral_srt DTYPE_INT (new_signed IInt 3))])]); (new_srt SRT_INIT [(new_iliteral_srt DTYPE_INT (new_signed IInt 2))]); (new_srt SRT_INIT [(new_dtyped_srt SRT_CAST_EXPR (DTYPE_POINTER DTYPE_CHAR) [(new_iliteral_srt DTYPE_INT (new_signed IInt 0))])])])])]). Proof. vm_compute. reflexivity. Qed.
(** tests/resolver/test_declaration.c test_resolve_struct_list_init_nested *)
Definition test_resolve_struct_list_init_nested := local_decl_test (new_ast AST_DECL [(new_ast AST_DECL_SPECS [(new_ast AST_TYPE_STRUCT [(new_ast AST_STRUCT_DECL_LIST [(new_ast AST_STRUCT_DECL [(new_ast AST_SPEC_QUAL_LIST [(new_ast AST_TYPE_STRUCT [(new_identifier_ast AST_STRUCT_NAME [67; 104; 105; 108; 100])])]); (new_ast AST_STRUCT_DECLOR_LIST [(new_identifier_ast AST_IDENT_DECLOR [102; 105; 114; 115; 116]); (new_identifier_ast AST_IDENT_DECLOR [115; 101; 99; 111; 110; 100])])])])])]); (new_ast AST_INIT_DECLOR_LIST [(new_ast AST_INIT_DECLOR [(new_identifier_ast AST_IDENT_DECLOR [115; 116; 114; 117; 99; 116; 117; 114; 101]); (new_ast AST_INIT_LIST [(new_ast AST_INIT_LIST [(new_iliteral_ast AST_INT_EXPR (new_signed IInt 1)); (new_iliteral_ast AST_INT_EXPR (new_signed IInt 2)); (new_iliteral_ast AST_INT_EXPR (new_signed IInt 3))]); (new_ast AST_INIT_LIST [(new_iliteral_ast AST_INT_EXPR (new_signed IInt 4)); (new_iliteral_ast AST_INT_EXPR (new_signed IInt 5)); (new_iliteral_ast AST_INT_EXPR (new_signed IInt 6))])])])])]) None (Some [(fun t => tag_define_struct t [67; 104; 105; 108; 100] [([120], DTYPE_INT); ([121], DTYPE_CHAR); ([122], DTYPE_INT)])]).
Example test_resolve_struct_list_init_nested_ok : got test_resolve_struct_list_init_nested = Some (new_srt SRT_DECL_LIST [(new_srt SRT_INIT_DECL [(new_identifier_srt SRT_IDENT_DECL (ust [([102; 105; 114; 115; 116], (DTYPE_NSTRUCT [67; 104; 105; 108; 100] 12 4)); ([115; 101; 99; 111; 110; 100], (DTYPE_NSTRUCT [67; 104; 105; 108; 100] 12 4))]) [115; 116; 114; 117; 99; 116; 117; 114; 101]); (new_srt SRT_INIT [(new_srt SRT_INIT [(new_srt SRT_INIT [(new_iliteral_srt DTYPE_INT (new_signed IInt 1))]); (new_srt SRT_INIT [(new_dtyped_srt SRT_CAST_EXPR DTYPE_CHAR [(new_iliteral_srt DTYPE_INT (new_signed IInt 2))])]); (new_srt SRT_INIT [(new_iliteral_srt DTYPE_INT (new_signed IInt 3))])]); (new_srt SRT_INIT [(new_srt SRT_INIT [(new_iliteral_srt DTYPE_INT (new_signed IInt 4))]); (new_srt SRT_INIT [(new_dtyped_srt SRT_CAST_EXPR DTYPE_CHAR [(new_iliteral_srt DTYPE_INT (new_signed IInt 5))])]); (new_srt SRT_INIT [(new_iliteral_srt DTYPE_INT (new_signed IInt 6))])])])])]). Proof. vm_compute. reflexivity. Qed.
(** tests/resolver/test_declaration.c test_resolve_struct_list_init_nested_105 *)
Definition test_resolve_struct_list_init_nested_105 := global_decl_test (new_ast AST_DECL [(new_ast AST_DECL_SPECS [(new_ast AST_TYPE_STRUCT [(new_ast AST_STRUCT_DECL_LIST [(new_ast AST_STRUCT_DECL [(new_ast AST_SPEC_QUAL_LIST [(new_ast AST_TYPE_STRUCT [(new_identifier_ast AST_STRUCT_NAME [67; 104; 105; 108; 100])])]); (new_ast AST_STRUCT_DECLOR_LIST [(new_identifier_ast AST_IDENT_DECLOR [102; 105; 114; 115; 116]); (new_identifier_ast AST_IDENT_DECLOR [115; 101; 99; 111; 110; 100])])])])])]); (new_ast AST_INIT_DECLOR_LIST [(new_ast AST_INIT_DECLOR [(new_identifier_ast AST_IDENT_DECLOR [115; 116; 114; 117; 99; 116; 117; 114; 101]); (new_ast AST_INIT_LIST [(new_ast AST_INIT_LIST [(new_iliteral_ast AST_INT_EXPR (new_signed IInt 1)); (new_iliteral_ast AST_INT_EXPR (new_signed IInt 2)); (new_iliteral_ast AST_INT_EXPR (new_signed IInt 3))]); (new_ast AST_INIT_LIST [(new_iliteral_ast AST_INT_EXPR (new_signed IInt 4)); (new_iliteral_ast AST_INT_EXPR (new_signed IInt 5)); (new_iliteral_ast AST_INT_EXPR (new_signed IInt 6))])])])])]) None (Some [(fun t => tag_define_struct t [67; 104; 105; 108; 100] [([120], DTYPE_INT); ([121], DTYPE_CHAR); ([122], DTYPE_INT)])]).
Example test_resolve_struct_list_init_nested_105_ok : got test_resolve_struct_list_init_nested_105 = Some (new_srt SRT_DECL_LIST [(new_srt SRT_INIT_DECL [(new_identifier_srt SRT_IDENT_DECL (ust [([102; 105; 114; 115; 116], (DTYPE_NSTRUCT [67; 104; 105; 108; 100] 12 4)); ([115; 101; 99; 111; 110; 100], (DTYPE_NSTRUCT [67; 104; 105; 108; 100] 12 4))]) [115; 116; 114; 117; 99; 116; 117; 114; 101]); (new_srt SRT_INIT [(new_srt SRT_INIT [(new_srt SRT_INIT [(new_iliteral_srt DTYPE_INT (new_signed IInt 1))]); (new_srt SRT_INIT [(new_dtyped_srt SRT_CAST_EXPR DTYPE_CHAR [(new_iliteral_srt DTYPE_INT (new_signed IInt 2))])]); (new_srt SRT_INIT [(new_iliteral_srt DTYPE_INT (new_signed IInt 3))])]); (new_srt SRT_INIT [(new_srt SRT_INIT [(new_iliteral_srt DTYPE_INT (new_signed IInt 4))]); (new_srt SRT_INIT [(new_dtyped_srt SRT_CAST_EXPR DTYPE_CHAR [(new_iliteral_srt DTYPE_INT (new_signed IInt 5))])]); (new_srt SRT_INIT [(new_iliteral_srt DTYPE_INT (new_signed IInt 6))])])])])]). Proof. vm_compute. reflexivity. Qed.
(** tests/resolver/test_declaration.c test_resolve_struct_list_init_nested_lacked *)
Definition test_resolve_struct_list_init_nested_lacked := local_decl_test (new_ast AST_DECL [(new_ast AST_DECL_SPECS [(new_ast AST_TYPE_STRUCT [(new_identifier_ast AST_STRUCT_NAME [83; 116; 114; 117; 99; 116])])]); (new_ast AST_INIT_DECLOR_LIST [(new_ast AST_INIT_DECLOR [(new_identifier_ast AST_IDENT_DECLOR [115; 116; 114; 117; 99; 116; 117; 114; 101]); (new_ast AST_INIT_LIST [(new_ast AST_INIT_LIST [(new_iliteral_ast AST_INT_EXPR (new_signed IInt 7)); (new_iliteral_ast AST_INT_EXPR (new_signed IInt 5)); (new_iliteral_ast AST_INT_EXPR (new_signed IInt 10))])])])])]) None (Some [(fun t => tag_define_struct t [67; 104; 105; 108; 100] [([120], DTYPE_INT); ([121], DTYPE_CHAR); ([122], DTYPE_INT)]); (fun t => tag_define_struct t [83; 116; 114; 117; 99; 116] [([102; 105; 114; 115; 116], (DTYPE_NSTRUCT [67; 104; 105; 108; 100] 12 4)); ([115; 101; 99; 111; 110; 100], (DTYPE_NSTRUCT [67; 104; 105; 108; 100] 12 4))])]).
Example test_resolve_struct_list_init_nested_lacked_ok : got test_resolve_struct_list_init_nested_lacked = Some (new_srt SRT_DECL_LIST [(new_srt SRT_INIT_DECL [(new_identifier_srt SRT_IDENT_DECL (DTYPE_NSTRUCT [83; 116; 114; 117; 99; 116] 24 4) [115; 116; 114; 117; 99; 116; 117; 114; 101]); (new_srt SRT_INIT [(new_srt SRT_INIT [(new_srt SRT_INIT [(new_iliteral_srt DTYPE_INT (new_signed IInt 7))]); (new_srt SRT_INIT [(new_dtyped_srt SRT_CAST_EXPR DTYPE_CHAR [(new_iliteral_srt DTYPE_INT (new_signed IInt 5))])]); (new_srt SRT_INIT [(new_iliteral_srt DTYPE_INT (new_signed IInt 10))])]); (new_srt SRT_INIT [(new_srt SRT_INIT [(new_iliteral_srt DTYPE_INT (new_signed IInt 0))]); (new_srt SRT_INIT [(new_dtyped_srt SRT_CAST_EXPR DTYPE_CHAR [(new_iliteral_srt DTYPE_INT (new_signed IInt 0))])]); (new_srt SRT_INIT [(new_iliteral_srt DTYPE_INT (new_signed IInt 0))])])])])]). Proof. vm_compute. reflexivity. Qed.
(** tests/resolver/test_declaration.c test_resolve_struct_list_init_nested_lacked_107 *)
Definition test_resolve_struct_list_init_nested_lacked_107 := global_decl_test (new_ast AST_DECL [(new_ast AST_DECL_SPECS [(new_ast AST_TYPE_STRUCT [(new_identifier_ast AST_STRUCT_NAME [83; 116; 114; 117; 99; 116])])]); (new_ast AST_INIT_DECLOR_LIST [(new_ast AST_INIT_DECLOR [(new_identifier_ast AST_IDENT_DECLOR [115; 116; 114; 117; 99; 116; 117; 114; 101]); (new_ast AST_INIT_LIST [(new_ast AST_INIT_LIST [(new_iliteral_ast AST_INT_EXPR (new_signed IInt 7)); (new_iliteral_ast AST_INT_EXPR (new_signed IInt 5)); (new_iliteral_ast AST_INT_EXPR (new_signed IInt 10))])])])])]) None (Some [(fun t => tag_define_struct t [67; 104; 105; 108; 100] [([120], DTYPE_INT); ([121], DTYPE_CHAR); ([122], DTYPE_INT)]); (fun t => tag_define_struct t [83; 116; 114; 117; 99; 116] [([102; 105; 114; 115; 116], (DTYPE_NSTRUCT [67; 104; 105; 108; 100] 12 4)); ([115; 101; 99; 111; 110; 100], (DTYPE_NSTRUCT [67; 104; 105; 108; 100] 12 4))])]).
Example test_resolve_struct_list_init_nested_lacked_107_ok : got test_resolve_struct_list_init_nested_lacked_107 = Some (new_srt SRT_DECL_LIST [(new_srt SRT_INIT_DECL [(new_identifier_srt SRT_IDENT_DECL (DTYPE_NSTRUCT [83; 116; 114; 117; 99; 116] 24 4) [115; 116; 114; 117; 99; 116; 117; 114; 101]); (new_srt SRT_INIT [(new_srt SRT_INIT [(new_srt SRT_INIT [(new_iliteral_srt DTYPE_INT (new_signed IInt 7))]); (new_srt SRT_INIT [(new_dtyped_srt SRT_CAST_EXPR DTYPE_CHAR [(new_iliteral_srt DTYPE_INT (new_signed IInt 5))])]); (new_srt SRT_INIT [(new_iliteral_srt DTYPE_INT (new_signed IInt 10))])]); (new_srt SRT_INIT [(new_srt SRT_INIT [(new_iliteral_srt DTYPE_INT (new_signed IInt 0))]); (new_srt SRT_INIT [(new_dtyped_srt SRT_CAST_EXPR DTYPE_CHAR [(new_iliteral_srt DTYPE_INT (new_signed IInt 0))])]); (new_srt SRT_INIT [(new_iliteral_srt DTYPE_INT (new_signed IInt 0))])])])])]). Proof. vm_compute. reflexivity. Qed.
(** tests/resolver/test_declaration.c test_resolve_struct_list_init_flatten *)
Definition test_resolve_struct_list_init_flatten := local_decl_test (new_ast AST_DECL [(new_ast AST_DECL_SPECS [(new_ast AST_TYPE_STRUCT [(new_ast AST_STRUCT_DECL_LIST [(new_ast AST_STRUCT_DECL [(new_ast AST_SPEC_QUAL_LIST [(new_ast AST_TYPE_STRUCT [(new_identifier_ast AST_STRUCT_NAME [67; 104; 105; 108; 100])])]); (new_ast AST_STRUCT_DECLOR_LIST [(new_identifier_ast AST_IDENT_DECLOR [102; 105; 114; 115; 116]); (new_identifier_ast AST_IDENT_DECLOR [115; 101; 99; 111; 110; 100])])])])])]); (new_ast AST_INIT_DECLOR_LIST [(new_ast AST_INIT_DECLOR [(new_identifier_ast AST_IDENT_DECLOR [115; 116; 114; 117; 99; 116; 117; 114; 101]); (new_ast AST_INIT_LIST [(new_iliteral_ast AST_INT_EXPR (new_signed IInt 6)); (new_iliteral_ast AST_INT_EXPR (new_signed IInt 1))])])])]) None (Some [(fun t => tag_define_struct t [67; 104; 105; 108; 100] [([120], DTYPE_INT); ([121], DTYPE_CHAR); ([122], DTYPE_INT)])]).
Example test_resolve_struct_list_init_flatten_ok : got test_resolve_struct_list_init_flatten = Some (new_srt SRT_DECL_LIST [(new_srt SRT_INIT_DECL [(new_identifier_srt SRT_IDENT_DECL (ust [([102; 105; 114; 115; 116], (DTYPE_NSTRUCT [67; 104; 105; 108; 100] 12 4)); ([115; 101; 99; 111; 110; 100], (DTYPE_NSTRUCT [67; 104; 105; 108; 100] 12 4))]) [115; 116; 114; 117; 99; 116; 117; 114; 101]); (new_srt SRT_INIT [(new_srt SRT_INIT [(new_srt SRT_INIT [(new_iliteral_srt DTYPE_INT (new_signed IInt 6))]); (new_srt SRT_INIT [(new_dtyped_srt SRT_CAST_EXPR DTYPE_CHAR [(new_iliteral_srt DTYPE_INT (new_signed IInt 1))])]); (new_srt SRT_INIT [(new_iliteral_srt DTYPE_INT (new_signed IInt 0))])]); (new_srt SRT_INIT [(new_srt SRT_INIT [(new_iliteral_srt DTYPE_INT (new_signed IInt 0))]); (new_srt SRT_INIT [(new_dtyped_srt SRT_CAST_EXPR DTYPE_CHAR [(new_iliteral_srt DTYPE_INT (new_signed IInt 0))])]); (new_srt SRT_INIT [(new_iliteral_srt DTYPE_INT (new_signed IInt 0))])])])])]). Proof. vm_compute. reflexivity. Qed.
(** tests/resolver/test_declaration.c test_resolve_struct_list_init_flatten_109 *)
Definition test_resolve_struct_list_init_flatten_109 := global_decl_test (new_ast AST_DECL [(new_ast AST_DECL_SPECS [(new_ast AST_TYPE_STRUCT [(new_ast AST_STRUCT_DECL_LIST [(new_ast AST_STRUCT_DECL [(new_ast AST_SPEC_QUAL_LIST [(new_ast AST_TYPE_STRUCT [(new_identifier_ast AST_STRUCT_NAME [67; 104; 105; 108; 100])])]); (new_ast AST_STRUCT_DECLOR_LIST [(new_identifier_ast AST_IDENT_DECLOR [102; 105; 114; 115; 116]); (new_identifier_ast AST_IDENT_DECLOR [115; 101; 99; 111; 110; 100])])])])])]); (new_ast AST_INIT_DECLOR_LIST [(new_ast AST_INIT_DECLOR [(new_identifier_ast AST_IDENT_DECLOR [115; 116; 114; 117; 99; 116; 117; 114; 101]); (new_ast AST_INIT_LIST [(new_iliteral_ast AST_INT_EXPR (new_signed IInt 6)); (new_iliteral_ast AST_INT_EXPR (new_signed IInt 1))])])])]) None (Some [(fun t => tag_define_struct t [67; 104; 105; 108; 100] [([120], DTYPE_INT); ([121], DTYPE_CHAR); ([122], DTYPE_INT)])]).
Example test_resolve_struct_list_init_flatten_109_ok : got test_resolve_struct_list_init_flatten_109 = Some (new_srt SRT_DECL_LIST [(new_srt SRT_INIT_DECL [(new_identifier_srt SRT_IDENT_DECL (ust [([102; 105; 114; 115; 116], (DTYPE_NSTRUCT [67; 104; 105; 108; 100] 12 4)); ([115; 101; 99; 111; 110; 100], (DTYPE_NSTRUCT [67; 104; 105; 108; 100] 12 4))]) [115; 116; 114; 117; 99; 116; 117; 114; 101]); (new_srt SRT_INIT [(new_srt SRT_INIT [(new_srt SRT_INIT [(new_iliteral_srt DTYPE_INT (new_signed IInt 6))]); (new_srt SRT_INIT [(new_dtyped_srt SRT_CAST_EXPR DTYPE_CHAR [(new_iliteral_srt DTYPE_INT (new_signed IInt 1))])]); (new_srt SRT_INIT [(new_iliteral_srt DTYPE_INT (new_signed IInt 0))])]); (new_srt SRT_INIT [(new_srt SRT_INIT [(new_iliteral_srt DTYPE_INT (new_signed IInt 0))]); (new_srt SRT_INIT [(new_dtyped_srt SRT_CAST_EXPR DTYPE_CHAR [(new_iliteral_srt DTYPE_INT (new_signed IInt 0))])]); (new_srt SRT_INIT [(new_iliteral_srt DTYPE_INT (new_signed IInt 0))])])])])]). Proof. vm_compute. reflexivity. Qed.
(** tests/resolver/test_declaration.c test_resolve_struct_list_init_mix *)
Definition test_resolve_struct_list_init_mix := local_decl_test (new_ast AST_DECL [(new_ast AST_DECL_SPECS [(new_ast AST_TYPE_STRUCT [(new_identifier_ast AST_STRUCT_NAME [83; 116; 114; 117; 99; 116])])]); (new_ast AST_INIT_DECLOR_LIST [(new_ast AST_INIT_DECLOR [(new_identifier_ast AST_IDENT_DECLOR [115; 116; 114; 117; 99; 116; 117; 114; 101]); (new_ast AST_INIT_LIST [(new_iliteral_ast AST_INT_EXPR (new_signed IInt 1)); (new_iliteral_ast AST_INT_EXPR (new_signed IInt 3)); (new_ast AST_INIT_LIST [(new_ast AST_INIT_LIST [(new_iliteral_ast AST_INT_EXPR (new_signed IInt 5))])])])])])]) None (Some [(fun t => tag_define_struct t [67; 104; 105; 108; 100] [([120], DTYPE_INT); ([121], DTYPE_CHAR)]); (fun t => tag_define_struct t [83; 116; 114; 117; 99; 116] [([102; 105; 114; 115; 116], (DTYPE_NSTRUCT [67; 104; 105; 108; 100] 8 4)); ([115; 101; 99; 111; 110; 100], (DTYPE_NSTRUCT [67; 104; 105; 108; 100] 8 4)); ([116; 104; 105; 114; 100], (DTYPE_NSTRUCT [67; 104; 105; 108; 100] 8 4))])]).
Example test_resolve_struct_list_init_mix_ok : got test_resolve_struct_list_init_mix = Some (new_srt SRT_DECL_LIST [(new_srt SRT_INIT_DECL [(new_identifier_srt SRT_IDENT_DECL (DTYPE_NSTRUCT [83; 116; 114; 117; 99; 116] 24 4) [115; 116; 114; 117; 99; 116; 117; 114; 101]); (new_srt SRT_INIT [(new_srt SRT_INIT [(new_srt SRT_INIT [(new_iliteral_srt DTYPE_INT (new_signed IInt 1))]); (new_srt SRT_INIT [(new_dtyped_srt SRT_CAST_EXPR DTYPE_CHAR [(new_iliteral_srt DTYPE_INT (new_signed IInt 3))])])]); (new_srt SRT_INIT [(new_srt SRT_INIT [(new_iliteral_srt DTYPE_INT (new_signed IInt 5))]); (new_srt SRT_INIT [(new_dtyped_srt SRT_CAST_EXPR DTYPE_CHAR [(new_iliteral_srt DTYPE_INT (new_signed IInt 0))])])]); (new_srt SRT_INIT [(new_srt SRT_INIT [(new_iliteral_srt DTYPE_INT (new_signed IInt 0))]); (new_srt SRT_INIT [(new_dtyped_srt SRT_CAST_EXPR DTYPE_CHAR [(new_iliteral_srt DTYPE_INT (new_signed IInt 0))])])])])])]). Proof. vm_compute. reflexivity. Qed.
(** tests/resolver/test_declaration.c test_resolve_struct_list_init_mix_111 *)
Definition test_resolve_struct_list_init_mix_111 := global_decl_test (new_ast AST_DECL [(new_ast AST_DECL_SPECS [(new_ast AST_TYPE_STRUCT [(new_identifier_ast AST_STRUCT_NAME [83; 116; 114; 117; 99; 116])])]); (new_ast AST_INIT_DECLOR_LIST [(new_ast AST_INIT_DECLOR [(new_identifier_ast AST_IDENT_DECLOR [115; 116; 114; 117; 99; 116; 117; 114; 101]); (new_ast AST_INIT_LIST [(new_iliteral_ast AST_INT_EXPR (new_signed IInt 1)); (new_iliteral_ast AST_INT_EXPR (new_signed IInt 3)); (new_ast AST_INIT_LIST [(new_ast AST_INIT_LIST [(new_iliteral_ast AST_INT_EXPR (new_signed IInt 5))])])])])])]) None (Some [(fun t => tag_define_struct t [67; 104; 105; 108; 100] [([120], DTYPE_INT); ([121], DTYPE_CHAR)]); (fun t => tag_define_struct t [83; 116; 114; 117; 99; 116] [([102; 105; 114; 115; 116], (DTYPE_NSTRUCT [67; 104; 105; 108; 100] 8 4)); ([115; 101; 99; 111; 110; 100], (DTYPE_NSTRUCT [67; 104; 105; 108; 100] 8 4)); ([116; 104; 105; 114; 100], (DTYPE_NSTRUCT [67; 104; 105; 108; 100] 8 4))])]).
Example test_resolve_struct_list_init_mix_111_ok : got test_resolve_struct_list_init_mix_111 = Some (new_srt SRT_DECL_LIST [(new_srt SRT_INIT_DECL [(new_identifier_srt SRT_IDENT_DECL (DTYPE_NSTRUCT [83; 116; 114; 117; 99; 116] 24 4) [115; 116; 114; 117; 99; 116; 117; 114; 101]); (new_srt SRT_INIT [(new_srt SRT_INIT [(new_srt SRT_INIT [(new_iliteral_srt DTYPE_INT (new_signed IInt 1))]); (new_srt SRT_INIT [(new_dtyped_srt SRT_CAST_EXPR DTYPE_CHAR [(new_iliteral_srt DTYPE_INT (new_signed IInt 3))])])]); (new_srt SRT_INIT [(new_srt SRT_INIT [(new_iliteral_srt DTYPE_INT (new_signed IInt 5))]); (new_srt SRT_INIT [(new_dtyped_srt SRT_CAST_EXPR DTYPE_CHAR [(new_iliteral_srt DTYPE_INT (new_signed IInt 0))])])]); (new_srt SRT_INIT [(new_srt SRT_INIT [(new_iliteral_srt DTYPE_INT (new_signed IInt 0))]); (new_srt SRT_INIT [(new_dtyped_srt SRT_CAST_EXPR DTYPE_CHAR [(new_iliteral_srt DTYPE_INT (new_signed IInt 0))])])])])])]). Proof. vm_compute. reflexivity. Qed.
(** tests/resolver/test_declaration.c test_resolve_list_init_chararray *)
Definition test_resolve_list_init_chararray := local_decl_test (new_ast AST_DECL [(new_ast AST_DECL_SPECS [(new_ast AST_TYPE_CHAR [])]); (new_ast AST_INIT_DECLOR_LIST [(new_ast AST_INIT_DECLOR [(new_ast AST_ARRAY_DECLOR [(new_identifier_ast AST_IDENT_DECLOR [97; 114; 114; 97; 121]); (new_iliteral_ast AST_INT_EXPR (new_signed IInt 3))]); (new_ast AST_INIT_LIST [(new_iliteral_ast AST_CHAR_EXPR (new_signed IInt 72))])])])]) None None.
Example test_resolve_list_init_chararray_ok : got test_resolve_list_init_chararray = Some (new_srt SRT_DECL_LIST [(new_srt SRT_INIT_DECL [(new_identifier_srt SRT_IDENT_DECL (DTYPE_ARRAY DTYPE_CHAR 3) [97; 114; 114; 97; 121]); (new_srt SRT_INIT [(new_srt SRT_INIT [(new_dtyped_srt SRT_CAST_EXPR DTYPE_CHAR [(new_iliteral_srt DTYPE_INT (new_signed IInt 72))])]); (new_srt SRT_INIT [(new_dtyped_srt SRT_CAST_EXPR DTYPE_CHAR [(new_iliteral_srt DTYPE_INT (new_signed IInt 0))])]); (new_srt SRT_INIT [(new_dtyped_srt SRT_CAST_EXPR DTYPE_CHAR [(new_iliteral_srt DTYPE_INT (new_signed IInt 0))])])])])]). Proof. vm_compute. reflexivity. Qed.
(** tests/resolver/test_declaration.c test_resolve_list_init_chararray_113 *)
Definition test_resolve_list_init_chararray_113 := global_decl_test (new_ast AST_DECL [(new_ast AST_DECL_SPECS [(new_ast AST_TYPE_CHAR [])]); (new_ast AST_INIT_DECLOR_LIST [(new_ast AST_INIT_DECLOR [(new_ast AST_ARRAY_DECLOR [(new_identifier_ast AST_IDENT_DECLOR [97; 114; 114; 97; 121]); (new_iliteral_ast AST_INT_EXPR (new_signed IInt 3))]); (new_ast AST_INIT_LIST [(new_iliteral_ast AST_CHAR_EXPR (new_signed IInt 72))])])])]) None None.
Example test_resolve_list_init_chararray_113_ok : got test_resolve_list_init_chararray_113 = Some (new_srt SRT_DECL_LIST [(new_srt SRT_INIT_DECL [(new_identifier_srt SRT_IDENT_DECL (DTYPE_ARRAY DTYPE_CHAR 3) [97; 114; 114; 97; 121]); (new_srt SRT_INIT [(new_srt SRT_INIT [(new_dtyped_srt SRT_CAST_EXPR DTYPE_CHAR [(new_iliteral_srt DTYPE_INT (new_signed IInt 72))])]); (new_srt SRT_INIT [(new_dtyped_srt SRT_CAST_EXPR DTYPE_CHAR [(new_iliteral_srt DTYPE_INT (new_signed IInt 0))])]); (new_srt SRT_INIT [(new_dtyped_srt SRT_CAST_EXPR DTYPE_CHAR [(new_iliteral_srt DTYPE_INT (new_signed IInt 0))])])])])]). Proof. vm_compute. reflexivity. Qed.
(** tests/resolver/test_declaration_error.c test_resolve_decl_specifiers_error_toolong *)
Definition test_resolve_decl_specifiers_error_toolong := local_decl_test (new_ast AST_DECL [(new_ast AST_DECL_SPECS [(new_ast AST_TYPE_UNSIGNED []); (new_ast AST_TYPE_LONG []); (new_ast AST_TYPE_LONG []); (new_ast AST_TYPE_LONG []); (new_ast AST_TYPE_INT [])]); (new_ast AST_INIT_DECLOR_LIST [(new_ast AST_INIT_DECLOR [(new_identifier_ast AST_IDENT_DECLOR [120])])])]) None None.
Example test_resolve_decl_specifiers_error_toolong_ok : errs test_resolve_decl_specifiers_error_toolong = true. Proof. vm_compute. reflexivity. Qed.
(** tests/resolver/test_declaration_error.c test_resolve_decl_specifiers_error_toolong_115 *)
Definition test_resolve_decl_specifiers_error_toolong_115 := global_decl_test (new_ast AST_DECL [(new_ast AST_DECL_SPECS [(new_ast AST_TYPE_UNSIGNED []); (new_ast AST_TYPE_LONG []); (new_ast AST_TYPE_LONG []); (new_ast AST_TYPE_LONG []); (new_ast AST_TYPE_INT [])]); (new_ast AST_INIT_DECLOR_LIST [(new_ast AST_INIT_DECLOR [(new_identifier_ast AST_IDENT_DECLOR [120])])])]) None None.
Example test_resolve_decl_specifiers_error_toolong_115_ok : errs test_resolve_decl_specifiers_error_toolong_115 = true. Proof. vm_compute. reflexivity. Qed.
(** tests/resolver/test_declaration_error.c test_resolve_decl_specifiers_error_combination *)
Definition test_resolve_decl_specifiers_error_combination := local_decl_test (new_ast AST_DECL [(new_ast AST_DECL_SPECS [(new_ast AST_TYPE_CHAR []); (new_ast AST_TYPE_INT [])]); (new_ast AST_INIT_DECLOR_LIST [(new_ast AST_INIT_DECLOR [(new_identifier_ast AST_IDENT_DECLOR [120])])])]) None None.
Example test_resolve_decl_specifiers_error_combination_ok : errs test_resolve_decl_specifiers_error_combination = true. Proof. vm_compute. reflexivity. Qed.
(** tests/resolver/test_declaration_error.c test_resolve_decl_specifiers_error_combination_117 *)
Definition test_resolve_decl_specifiers_error_combination_117 := global_decl_test (new_ast AST_DECL [(new_ast AST_DECL_SPECS [(new_ast AST_TYPE_CHAR []); (new_ast AST_TYPE_INT [])]); (new_ast AST_INIT_DECLOR_LIST [(new_ast AST_INIT_DECLOR [(new_identifier_ast AST_IDENT_DECLOR [120])])])]) None None.
Example test_resolve_decl_specifiers_error_combination_117_ok : errs test_resolve_decl_specifiers_error_combination_117 = true. Proof. vm_compute. reflexivity. Qed.
(** tests/resolver/test_declaration_error.c test_resolve_declarator_list_error_duplicated *)
Definition test_resolve_declarator_list_error_duplicated := local_decl_test (new_ast AST_DECL [(new_ast AST_DECL_SPECS [(new_ast AST_TYPE_INT [])]); (new_ast AST_INIT_DECLOR_LIST [(new_ast AST_INIT_DECLOR [(new_identifier_ast AST_IDENT_DECLOR [120])]); (new_ast AST_INIT_DECLOR [(new_identifier_ast AST_IDENT_DECLOR [121])]); (new_ast AST_INIT_DECLOR [(new_identifier_ast AST_IDENT_DECLOR [121])]); (new_ast AST_INIT_DECLOR [(new_identifier_ast AST_IDENT_DECLOR [120])]); (new_ast AST_INIT_DECLOR [(new_identifier_ast AST_IDENT_DECLOR [122])])])]) None None.
Example test_resolve_declarator_list_error_duplicated_ok : errs test_resolve_declarator_list_error_duplicated = true. Proof. vm_compute. reflexivity. Qed.
(** tests/resolver/test_declaration_error.c test_resolve_declarator_list_error_duplicated_119 *)
Definition test_resolve_declarator_list_error_duplicated_119 := global_decl_test (new_ast AST_DECL [(new_ast AST_DECL_SPECS [(new_ast AST_TYPE_INT [])]); (new_ast AST_INIT_DECLOR_LIST [(new_ast AST_INIT_DECLOR [(new_identifier_ast AST_IDENT_DECLOR [120])]); (new_ast AST_INIT_DECLOR [(new_identifier_ast AST_IDENT_DECLOR [121])]); (new_ast AST_INIT_DECLOR [(new_identifier_ast AST_IDENT_DECLOR [121])]); (new_ast AST_INIT_DECLOR [(new_identifier_ast AST_IDENT_DECLOR [120])]); (new_ast AST_INIT_DECLOR [(new_identifier_ast AST_IDENT_DECLOR [122])])])]) None None.
Example test_resolve_declarator_list_error_duplicated_119_ok : errs test_resolve_declarator_list_error_duplicated_119 = true. Proof. vm_compute. reflexivity. Qed.
(** tests/resolver/test_declaration_error.c test_resolve_declarator_error_incomplete *)
Definition test_resolve_declarator_error_incomplete := local_decl_test (new_ast AST_DECL [(new_ast AST_DECL_SPECS [(new_ast AST_TYPE_VOID [])]); (new_ast AST_INIT_DECLOR_LIST [(new_ast AST_INIT_DECLOR [(new_identifier_ast AST_IDENT_DECLOR [120])])])]) None None.
Example test_resolve_declarator_error_incomplete_ok : errs test_resolve_declarator_error_incomplete = true. Proof. vm_compute. reflexivity. Qed.
(** tests/resolver/test_declaration_error.c test_resolve_declarator_error_incomplete_121 *)
Definition test_resolve_declarator_error_incomplete_121 := global_decl_test (new_ast AST_DECL [(new_ast AST_DECL_SPECS [(new_ast AST_TYPE_VOID [])]); (new_ast AST_INIT_DECLOR_LIST [(new_ast AST_INIT_DECLOR [(new_identifier_ast AST_IDENT_DECLOR [120])])])]) None None.
Example test_resolve_declarator_error_incomplete_121_ok : errs test_resolve_declarator_error_incomplete_121 = true. Proof. vm_compute. reflexivity. Qed.
(** tests/resolver/test_declaration_error.c test_resolve_array_error_functions *)
Definition test_resolve_array_error_functions := local_decl_test (new_ast AST_DECL [(new_ast AST_DECL_SPECS [(new_ast AST_TYPE_INT [])]); (new_ast AST_INIT_DECLOR_LIST [(new_ast AST_INIT_DECLOR [(new_ast AST_ARRAY_DECLOR [(new_ast AST_FUNC_DECLOR [(new_identifier_ast AST_IDENT_DECLOR [97; 114; 114; 97; 121]); (new_ast AST_PARAM_LIST [])]); (new_iliteral_ast AST_INT_EXPR (new_signed IInt 5))])])])]) None None.
Example test_resolve_array_error_functions_ok : errs test_resolve_array_error_functions = true. Proof. vm_compute. reflexivity. Qed.
(** tests/resolver/test_declaration_error.c test_resolve_array_error_functions_123 *)
Definition test_resolve_array_error_functions_123 := global_decl_test (new_ast AST_DECL [(new_ast AST_DECL_SPECS [(new_ast AST_TYPE_INT [])]); (new_ast AST_INIT_DECLOR_LIST [(new_ast AST_INIT_DECLOR [(new_ast AST_ARRAY_DECLOR [(new_ast AST_FUNC_DECLOR [(new_identifier_ast AST_IDENT_DECLOR [97; 114; 114; 97; 121]); (new_ast AST_PARAM_LIST [])]); (new_iliteral_ast AST_INT_EXPR (new_signed IInt 5))])])])]) None None.
Example test_resolve_array_error_functions_123_ok : errs test_resolve_array_error_functions_123 = true. Proof. vm_compute. reflexivity. Qed.
(** tests/resolver/test_declaration_error.c test_resolve_array_error_incomplete *)
Definition test_resolve_array_error_incomplete := local_decl_test (new_ast AST_DECL [(new_ast AST_DECL_SPECS [(new_ast AST_TYPE_VOID [])]); (new_ast AST_INIT_DECLOR_LIST [(new_ast AST_INIT_DECLOR [(new_ast AST_ARRAY_DECLOR [(new_identifier_ast AST_IDENT_DECLOR [97; 114; 114; 97; 121]); (new_iliteral_ast AST_INT_EXPR (new_signed IInt 5))])])])]) None None.
Example test_resolve_array_error_incomplete_ok : errs test_resolve_array_error_incomplete = true. Proof. vm_compute. reflexivity. Qed.
(** tests/resolver/test_declaration_error.c test_resolve_array_error_incomplete_125 *)
Definition test_resolve_array_error_incomplete_125 := global_decl_test (new_ast AST_DECL [(new_ast AST_DECL_SPECS [(new_ast AST_TYPE_VOID [])]); (new_ast AST_INIT_DECLOR_LIST [(new_ast AST_INIT_DECLOR [(new_ast AST_ARRAY_DECLOR [(new_identifier_ast AST_IDENT_DECLOR [97; 114; 114; 97; 121]); (new_iliteral_ast AST_INT_EXPR (new_signed IInt 5))])])])]) None None.
Example test_resolve_array_error_incomplete_125_ok : errs test_resolve_array_error_incomplete_125 = true. Proof. vm_compute. reflexivity. Qed.
(** tests/resolver/test_declaration_error.c test_resolve_array_error_size_non_positive *)
Definition test_resolve_array_error_size_non_positive := local_decl_test (new_ast AST_DECL [(new_ast AST_DECL_SPECS [(new_ast AST_TYPE_INT [])]); (new_ast AST_INIT_DECLOR_LIST [(new_ast AST_INIT_DECLOR [(new_ast AST_ARRAY_DECLOR [(new_identifier_ast AST_IDENT_DECLOR [97]); (new_iliteral_ast AST_INT_EXPR (new_signed IInt 0))])])])]) None None.
Example test_resolve_array_error_size_non_positive_ok : errs test_resolve_array_error_size_non_positive = true. Proof. vm_compute. reflexivity. Qed.
(** tests/resolver/test_declaration_error.c test_resolve_array_error_size_non_positive_127 *)
Definition test_resolve_array_error_size_non_positive_127 := global_decl_test (new_ast AST_DECL [(new_ast AST_DECL_SPECS [(new_ast AST_TYPE_INT [])]); (new_ast AST_INIT_DECLOR_LIST [(new_ast AST_INIT_DECLOR [(new_ast AST_ARRAY_DECLOR [(new_identifier_ast AST_IDENT_DECLOR [97]); (new_iliteral_ast AST_INT_EXPR (new_signed IInt 0))])])])]) None None.
Example test_resolve_array_error_size_non_positive_127_ok : errs test_resolve_array_error_size_non_positive_127 = true. Proof. vm_compute. reflexivity. Qed.
(** tests/resolver/test_declaration_error.c test_resolve_array_error_size_limitation *)
Definition test_resolve_array_error_size_limitation := local_decl_test (new_ast AST_DECL [(new_ast AST_DECL_SPECS [(new_ast AST_TYPE_INT [])]); (new_ast AST_INIT_DECLOR_LIST [(new_ast AST_INIT_DECLOR [(new_ast AST_ARRAY_DECLOR [(new_identifier_ast AST_IDENT_DECLOR [97]); (new_ast AST_MUL_EXPR [(new_iliteral_ast AST_INT_EXPR (new_signed IInt 4)); (new_iliteral_ast AST_INT_EXPR (new_signed IInt 5))])])])])]) None None.
Example test_resolve_array_error_size_limitation_ok : errs test_resolve_array_error_size_limitation = true. Proof. vm_compute. reflexivity. Qed.
(** tests/resolver/test_declaration_error.c test_resolve_array_error_size_limitation_129 *)
Definition test_resolve_array_error_size_limitation_129 := global_decl_test (new_ast AST_DECL [(new_ast AST_DECL_SPECS [(new_ast AST_TYPE_INT [])]); (new_ast AST_INIT_DECLOR_LIST [(new_ast AST_INIT_DECLOR [(new_ast AST_ARRAY_DECLOR [(new_identifier_ast AST_IDENT_DECLOR [97]); (new_ast AST_MUL_EXPR [(new_iliteral_ast AST_INT_EXPR (new_signed IInt 4)); (new_iliteral_ast AST_INT_EXPR (new_signed IInt 5))])])])])]) None None.
Example test_resolve_array_error_size_limitation_129_ok : errs test_resolve_array_error_size_limitation_129 = true. Proof. vm_compute. reflexivity. Qed.
(** tests/resolver/test_declaration_error.c test_resolve_struct_error_duplicated *)
Definition test_resolve_struct_error_duplicated := local_decl_test (new_ast AST_DECL [(new_ast AST_DECL_SPECS [(new_ast AST_TYPE_STRUCT [(new_identifier_ast AST_STRUCT_NAME [83; 116; 114; 117; 99; 116]); (new_ast AST_STRUCT_DECL_LIST [(new_ast AST_STRUCT_DECL [(new_ast AST_SPEC_QUAL_LIST [(new_ast AST_TYPE_CHAR [])]); (new_ast AST_STRUCT_DECLOR_LIST [(new_identifier_ast AST_IDENT_DECLOR [109; 101; 109; 98; 101; 114])])])])])]); (new_ast AST_INIT_DECLOR_LIST [(new_ast AST_INIT_DECLOR [(new_identifier_ast AST_IDENT_DECLOR [115; 116; 114; 117; 99; 116; 117; 114; 101])])])]) None (Some [(fun t => tag_define_struct t [83; 116; 114; 117; 99; 116] [([120], DTYPE_INT)])]).
Example test_resolve_struct_error_duplicated_ok : errs test_resolve_struct_error_duplicated = true. Proof. vm_compute. reflexivity. Qed.
(** tests/resolver/test_declaration_error.c test_resolve_struct_error_duplicated_131 *)
Definition test_resolve_struct_error_duplicated_131 := global_decl_test (new_ast AST_DECL [(new_ast AST_DECL_SPECS [(new_ast AST_TYPE_STRUCT [(new_identifier_ast AST_STRUCT_NAME [83; 116; 114; 117; 99; 116]); (new_ast AST_STRUCT_DECL_LIST [(new_ast AST_STRUCT_DECL [(new_ast AST_SPEC_QUAL_LIST [(new_ast AST_TYPE_CHAR [])]); (new_ast AST_STRUCT_DECLOR_LIST [(new_identifier_ast AST_IDENT_DECLOR [109; 101; 109; 98; 101; 114])])])])])]); (new_ast AST_INIT_DECLOR_LIST [(new_ast AST_INIT_DECLOR [(new_identifier_ast AST_IDENT_DECLOR [115; 116; 114; 117; 99; 116; 117; 114; 101])])])]) None (Some [(fun t => tag_define_struct t [83; 116; 114; 117; 99; 116] [([120], DTYPE_INT)])]).
Example test_resolve_struct_error_duplicated_131_ok : errs test_resolve_struct_error_duplicated_131 = true. Proof. vm_compute. reflexivity. Qed.
(** tests/resolver/test_declaration_error.c test_resolve_struct_member_error_duplicated *)
Definition test_resolve_struct_member_error_duplicated := local_decl_test (new_ast AST_DECL [(new_ast AST_DECL_SPECS [(new_ast AST_TYPE_STRUCT [(new_ast AST_STRUCT_DECL_LIST [(new_ast AST_STRUCT_DECL [(new_ast AST_SPEC_QUAL_LIST [(new_ast AST_TYPE_CHAR [])]); (new_ast AST_STRUCT_DECLOR_LIST [(new_identifier_ast AST_IDENT_DECLOR [121])])]); (new_ast AST_STRUCT_DECL [(new_ast AST_SPEC_QUAL_LIST [(new_ast AST_TYPE_INT [])]); (new_ast AST_STRUCT_DECLOR_LIST [(new_identifier_ast AST_IDENT_DECLOR [120]); (new_identifier_ast AST_IDENT_DECLOR [120]); (new_identifier_ast AST_IDENT_DECLOR [121])])])])])]); (new_ast AST_INIT_DECLOR_LIST [(new_ast AST_INIT_DECLOR [(new_identifier_ast AST_IDENT_DECLOR [115; 116; 114; 117; 99; 116; 117; 114; 101])])])]) None None.
Example test_resolve_struct_member_error_duplicated_ok : errs test_resolve_struct_member_error_duplicated = true. Proof. vm_compute. reflexivity. Qed.
(** tests/resolver/test_declaration_error.c test_resolve_struct_member_error_duplicated_133 *)
Definition test_resolve_struct_member_error_duplicated_133 := global_decl_test (new_ast AST_DECL [(new_ast AST_DECL_SPECS [(new_ast AST_TYPE_STRUCT [(new_ast AST_STRUCT_DECL_LIST [(new_ast AST_STRUCT_DECL [(new_ast AST_SPEC_QUAL_LIST [(new_ast AST_TYPE_CHAR [])]); (new_ast AST_STRUCT_DECLOR_LIST [(new_identifier_ast AST_IDENT_DECLOR [121])])]); (new_ast AST_STRUCT_DECL [(new_ast AST_SPEC_QUAL_LIST [(new_ast AST_TYPE_INT [])]); (new_ast AST_STRUCT_DECLOR_LIST [(new_identifier_ast AST_IDENT_DECLOR [120]); (new_identifier_ast AST_IDENT_DECLOR [120]); (new_identifier_ast AST_IDENT_DECLOR [121])])])])])]); (new_ast AST_INIT_DECLOR_LIST [(new_ast AST_INIT_DECLOR [(new_identifier_ast AST_IDENT_DECLOR [115; 116; 114; 117; 99; 116; 117; 114; 101])])])]) None None.
Example test_resolve_struct_member_error_duplicated_133_ok : errs test_resolve_struct_member_error_duplicated_133 = true. Proof. vm_compute. reflexivity. Qed.
(** tests/resolver/test_declaration_error.c test_resolve_struct_member_error_invalid *)
Definition test_resolve_struct_member_error_invalid := local_decl_test (new_ast AST_DECL [(new_ast AST_DECL_SPECS [(new_ast AST_TYPE_STRUCT [(new_ast AST_STRUCT_DECL_LIST [(new_ast AST_STRUCT_DECL [(new_ast AST_SPEC_QUAL_LIST [(new_ast AST_TYPE_INT [])]); (new_ast AST_STRUCT_DECLOR_LIST [(new_ast AST_FUNC_DECLOR [(new_identifier_ast AST_IDENT_DECLOR [102]); (new_ast AST_PARAM_LIST [])]); (new_identifier_ast AST_IDENT_DECLOR [105])])]); (new_ast AST_STRUCT_DECL [(new_ast AST_SPEC_QUAL_LIST [(new_ast AST_TYPE_STRUCT [(new_identifier_ast AST_STRUCT_NAME [83; 116; 114; 117; 99; 116])])]); (new_ast AST_STRUCT_DECLOR_LIST [(new_identifier_ast AST_IDENT_DECLOR [115; 116; 114; 117; 99; 116; 117; 114; 101])])]); (new_ast AST_STRUCT_DECL [(new_ast AST_SPEC_QUAL_LIST [(new_ast AST_TYPE_CHAR [])]); (new_ast AST_STRUCT_DECLOR_LIST [(new_identifier_ast AST_IDENT_DECLOR [99])])])])])])]) None None.
Example test_resolve_struct_member_error_invalid_ok : errs test_resolve_struct_member_error_invalid = true. Proof. vm_compute. reflexivity. Qed.
(** tests/resolver/test_declaration_error.c test_resolve_struct_member_error_invalid_135 *)
Definition test_resolve_struct_member_error_invalid_135 := global_decl_test (new_ast AST_DECL [(new_ast AST_DECL_SPECS [(new_ast AST_TYPE_STRUCT [(new_ast AST_STRUCT_DECL_LIST [(new_ast AST_STRUCT_DECL [(new_ast AST_SPEC_QUAL_LIST [(new_ast AST_TYPE_INT [])]); (new_ast AST_STRUCT_DECLOR_LIST [(new_ast AST_FUNC_DECLOR [(new_identifier_ast AST_IDENT_DECLOR [102]); (new_ast AST_PARAM_LIST [])]); (new_identifier_ast AST_IDENT_DECLOR [105])])]); (new_ast AST_STRUCT_DECL [(new_ast AST_SPEC_QUAL_LIST [(new_ast AST_TYPE_STRUCT [(new_identifier_ast AST_STRUCT_NAME [83; 116; 114; 117; 99; 116])])]); (new_ast AST_STRUCT_DECLOR_LIST [(new_identifier_ast AST_IDENT_DECLOR [115; 116; 114; 117; 99; 116; 117; 114; 101])])]); (new_ast AST_STRUCT_DECL [(new_ast AST_SPEC_QUAL_LIST [(new_ast AST_TYPE_CHAR [])]); (new_ast AST_STRUCT_DECLOR_LIST [(new_identifier_ast AST_IDENT_DECLOR [99])])])])])])]) None None.
Example test_resolve_struct_member_error_invalid_135_ok : errs test_resolve_struct_member_error_invalid_135 = true. Proof. vm_compute. reflexivity. Qed.
(** tests/resolver/test_declaration_error.c test_resolve_enum_error_duplicated *)
Definition test_resolve_enum_error_duplicated := local_decl_test (new_ast AST_DECL [(new_ast AST_DECL_SPECS [(new_ast AST_TYPE_ENUM [(new_identifier_ast AST_ENUM_NAME [69; 110; 117; 109]); (new_ast AST_ENUMOR_LIST [(new_ast AST_ENUMOR [(new_identifier_ast AST_ENUM_CONST [77; 69; 77; 66; 69; 82])])])])])]) None (Some [(fun t => tag_define_enum t [69; 110; 117; 109] [([77; 69; 77; 66; 69; 82], 0)])]).
Example test_resolve_enum_error_duplicated_ok : errs test_resolve_enum_error_duplicated = true. Proof. vm_compute. reflexivity. Qed.
(** tests/resolver/test_declaration_error.c test_resolve_enum_error_duplicated_137 *)
Definition test_resolve_enum_error_duplicated_137 := global_decl_test (new_ast AST_DECL [(new_ast AST_DECL_SPECS [(new_ast AST_TYPE_ENUM [(new_identifier_ast AST_ENUM_NAME [69; 110; 117; 109]); (new_ast AST_ENUMOR_LIST [(new_ast AST_ENUMOR [(new_identifier_ast AST_ENUM_CONST [77; 69; 77; 66; 69; 82])])])])])]) None (Some [(fun t => tag_define_enum t [69; 110; 117; 109] [([77; 69; 77; 66; 69; 82], 0)])]).
Example test_resolve_enum_error_duplicated_137_ok : errs test_resolve_enum_error_duplicated_137 = true. Proof. vm_compute. reflexivity. Qed.
(** tests/resolver/test_declaration_error.c test_resolve_enum_member_error_duplicated *)
Definition test_resolve_enum_member_error_duplicated := local_decl_test (new_ast AST_DECL [(new_ast AST_DECL_SPECS [(new_ast AST_TYPE_ENUM [(new_identifier_ast AST_ENUM_NAME [69; 110; 117; 109]); (new_ast AST_ENUMOR_LIST [(new_ast AST_ENUMOR [(new_identifier_ast AST_ENUM_CONST [70; 73; 82; 83; 84])]); (new_ast AST_ENUMOR [(new_identifier_ast AST_ENUM_CONST [83; 69; 67; 79; 78; 68]); (new_iliteral_ast AST_INT_EXPR (new_signed IInt 5))]); (new_ast AST_ENUMOR [(new_identifier_ast AST_ENUM_CONST [83; 69; 67; 79; 78; 68]); (new_iliteral_ast AST_INT_EXPR (new_signed IInt 6))]); (new_ast AST_ENUMOR [(new_identifier_ast AST_ENUM_CONST [70; 73; 82; 83; 84])])])])])]) None None.
Example test_resolve_enum_member_error_duplicated_ok : errs test_resolve_enum_member_error_duplicated = true. Proof. vm_compute. reflexivity. Qed.
(** tests/resolver/test_declaration_error.c test_resolve_enum_member_error_duplicated_139 *)
Definition test_resolve_enum_member_error_duplicated_139 := global_decl_test (new_ast AST_DECL [(new_ast AST_DECL_SPECS [(new_ast AST_TYPE_ENUM [(new_identifier_ast AST_ENUM_NAME [69; 110; 117; 109]); (new_ast AST_ENUMOR_LIST [(new_ast AST_ENUMOR [(new_identifier_ast AST_ENUM_CONST [70; 73; 82; 83; 84])]); (new_ast AST_ENUMOR [(new_identifier_ast AST_ENUM_CONST [83; 69; 67; 79; 78; 68]); (new_iliteral_ast AST_INT_EXPR (new_signed IInt 5))]); (new_ast AST_ENUMOR [(new_identifier_ast AST_ENUM_CONST [83; 69; 67; 79; 78; 68]); (new_iliteral_ast AST_INT_EXPR (new_signed IInt 6))]); (new_ast AST_ENUMOR [(new_identifier_ast AST_ENUM_CONST [70; 73; 82; 83; 84])])])])])]) None None.
Example test_resolve_enum_member_error_duplicated_139_ok : errs test_resolve_enum_member_error_duplicated_139 = true. Proof. vm_compute. reflexivity. Qed.
(** tests/resolver/test_declaration_error.c test_resolve_enum_error_const_limit *)
Definition test_resolve_enum_error_const_limit := local_decl_test (new_ast AST_DECL [(new_ast AST_DECL_SPECS [(new_ast AST_TYPE_ENUM [(new_identifier_ast AST_ENUM_NAME [69; 110; 117; 109]); (new_ast AST_ENUMOR_LIST [(new_ast AST_ENUMOR [(new_identifier_ast AST_ENUM_CONST [69; 82; 82; 79; 82]); (new_ast AST_ADD_EXPR [(new_iliteral_ast AST_INT_EXPR (new_signed IInt 5)); (new_iliteral_ast AST_INT_EXPR (new_signed IInt 2))])]); (new_ast AST_ENUMOR [(new_identifier_ast AST_ENUM_CONST [77; 69; 77; 66; 69; 82])])])])])]) None None.
Example test_resolve_enum_error_const_limit_ok : errs test_resolve_enum_error_const_limit = true. Proof. vm_compute. reflexivity. Qed.
(** tests/resolver/test_declaration_error.c test_resolve_enum_error_const_limit_141 *)
Definition test_resolve_enum_error_const_limit_141 := global_decl_test (new_ast AST_DECL [(new_ast AST_DECL_SPECS [(new_ast AST_TYPE_ENUM [(new_identifier_ast AST_ENUM_NAME [69; 110; 117; 109]); (new_ast AST_ENUMOR_LIST [(new_ast AST_ENUMOR [(new_identifier_ast AST_ENUM_CONST [69; 82; 82; 79; 82]); (new_ast AST_ADD_EXPR [(new_iliteral_ast AST_INT_EXPR (new_signed IInt 5)); (new_iliteral_ast AST_INT_EXPR (new_signed IInt 2))])]); (new_ast AST_ENUMOR [(new_identifier_ast AST_ENUM_CONST [77; 69; 77; 66; 69; 82])])])])])]) None None.
Example test_resolve_enum_error_const_limit_141_ok : errs test_resolve_enum_error_const_limit_141 = true. Proof. vm_compute. reflexivity. Qed.
(** tests/resolver/test_declaration_error.c test_resolve_function_error_array *)
Definition test_resolve_function_error_array := local_decl_test (new_ast AST_DECL [(new_ast AST_DECL_SPECS [(new_ast AST_TYPE_INT [])]); (new_ast AST_INIT_DECLOR_LIST [(new_ast AST_INIT_DECLOR [(new_ast AST_FUNC_DECLOR [(new_ast AST_ARRAY_DECLOR [(new_identifier_ast AST_IDENT_DECLOR [102; 117; 110; 99; 116; 105; 111; 110]); (new_iliteral_ast AST_INT_EXPR (new_signed IInt 6))]); (new_ast AST_PARAM_LIST [])])])])]) None None.
Example test_resolve_function_error_array_ok : errs test_resolve_function_error_array = true. Proof. vm_compute. reflexivity. Qed.
(** tests/resolver/test_declaration_error.c test_resolve_function_error_array_143 *)
Definition test_resolve_function_error_array_143 := global_decl_test (new_ast AST_DECL [(new_ast AST_DECL_SPECS [(new_ast AST_TYPE_INT [])]); (new_ast AST_INIT_DECLOR_LIST [(new_ast AST_INIT_DECLOR [(new_ast AST_FUNC_DECLOR [(new_ast AST_ARRAY_DECLOR [(new_identifier_ast AST_IDENT_DECLOR [102; 117; 110; 99; 116; 105; 111; 110]); (new_iliteral_ast AST_INT_EXPR (new_signed IInt 6))]); (new_ast AST_PARAM_LIST [])])])])]) None None.
Example test_resolve_function_error_array_143_ok : errs test_resolve_function_error_array_143 = true. Proof. vm_compute. reflexivity. Qed.
(** tests/resolver/test_declaration_error.c test_resolve_function_error_function *)
Definition test_resolve_function_error_function := local_decl_test (new_ast AST_DECL [(new_ast AST_DECL_SPECS [(new_ast AST_TYPE_INT [])]); (new_ast AST_INIT_DECLOR_LIST [(new_ast AST_INIT_DECLOR [(new_ast AST_FUNC_DECLOR [(new_ast AST_FUNC_DECLOR [(new_identifier_ast AST_IDENT_DECLOR [102; 117; 110; 99; 116; 105; 111; 110]); (new_ast AST_PARAM_LIST [])]); (new_ast AST_PARAM_LIST [])])])])]) None None.
Example test_resolve_function_error_function_ok : errs test_resolve_function_error_function = true. Proof. vm_compute. reflexivity. Qed.
(** tests/resolver/test_declaration_error.c test_resolve_function_error_function_145 *)
Definition test_resolve_function_error_function_145 := global_decl_test (new_ast AST_DECL [(new_ast AST_DECL_SPECS [(new_ast AST_TYPE_INT [])]); (new_ast AST_INIT_DECLOR_LIST [(new_ast AST_INIT_DECLOR [(new_ast AST_FUNC_DECLOR [(new_ast AST_FUNC_DECLOR [(new_identifier_ast AST_IDENT_DECLOR [102; 117; 110; 99; 116; 105; 111; 110]); (new_ast AST_PARAM_LIST [])]); (new_ast AST_PARAM_LIST [])])])])]) None None.
Example test_resolve_function_error_function_145_ok : errs test_resolve_function_error_function_145 = true. Proof. vm_compute. reflexivity. Qed.
(** tests/resolver/test_declaration_error.c test_resolve_function_error_non_void_incomplete *)
Definition test_resolve_function_error_non_void_incomplete := local_decl_test (new_ast AST_DECL [(new_ast AST_DECL_SPECS [(new_ast AST_TYPE_STRUCT [(new_identifier_ast AST_STRUCT_NAME [83; 116; 114; 117; 99; 116])])]); (new_ast AST_INIT_DECLOR_LIST [(new_ast AST_INIT_DECLOR [(new_ast AST_FUNC_DECLOR [(new_identifier_ast AST_IDENT_DECLOR [102; 117; 110; 99; 116; 105; 111; 110]); (new_ast AST_PARAM_LIST [])])])])]) None None.
Example test_resolve_function_error_non_void_incomplete_ok : errs test_resolve_function_error_non_void_incomplete = true. Proof. vm_compute. reflexivity. Qed.
(** tests/resolver/test_declaration_error.c test_resolve_function_error_non_void_incomplete_147 *)
Definition test_resolve_function_error_non_void_incomplete_147 := global_decl_test (new_ast AST_DECL [(new_ast AST_DECL_SPECS [(new_ast AST_TYPE_STRUCT [(new_identifier_ast AST_STRUCT_NAME [83; 116; 114; 117; 99; 116])])]); (new_ast AST_INIT_DECLOR_LIST [(new_ast AST_INIT_DECLOR [(new_ast AST_FUNC_DECLOR [(new_identifier_ast AST_IDENT_DECLOR [102; 117; 110; 99; 116; 105; 111; 110]); (new_ast AST_PARAM_LIST [])])])])]) None None.
Example test_resolve_function_error_non_void_incomplete_147_ok : errs test_resolve_function_error_non_void_incomplete_147 = true. Proof. vm_compute. reflexivity. Qed.
(** tests/resolver/test_declaration_error.c test_resolve_param_list_error_duplicated *)
Definition test_resolve_param_list_error_duplicated := local_decl_test (new_ast AST_DECL [(new_ast AST_DECL_SPECS [(new_ast AST_TYPE_CHAR [])]); (new_ast AST_INIT_DECLOR_LIST [(new_ast AST_INIT_DECLOR [(new_ast AST_FUNC_DECLOR [(new_identifier_ast AST_IDENT_DECLOR [102]); (new_ast AST_PARAM_LIST [(new_ast AST_PARAM_DECL [(new_ast AST_DECL_SPECS [(new_ast AST_TYPE_INT [])]); (new_identifier_ast AST_IDENT_DECLOR [120])]); (new_ast AST_PARAM_DECL [(new_ast AST_DECL_SPECS [(new_ast AST_TYPE_CHAR [])]); (new_identifier_ast AST_IDENT_DECLOR [121])]); (new_ast AST_PARAM_DECL [(new_ast AST_DECL_SPECS [(new_ast AST_TYPE_CHAR [])]); (new_identifier_ast AST_IDENT_DECLOR [120])]); (new_ast AST_PARAM_DECL [(new_ast AST_DECL_SPECS [(new_ast AST_TYPE_INT [])]); (new_identifier_ast AST_IDENT_DECLOR [121])]); (new_ast AST_PARAM_DECL [(new_ast AST_DECL_SPECS [(new_ast AST_TYPE_INT [])]); (new_ast AST_PTR_DECLOR [(new_identifier_ast AST_IDENT_DECLOR [122])])])])])])])]) None None.
Example test_resolve_param_list_error_duplicated_ok : errs test_resolve_param_list_error_duplicated = true. Proof. vm_compute. reflexivity. Qed.
(** tests/resolver/test_declaration_error.c test_resolve_param_list_error_duplicated_149 *)
Definition test_resolve_param_list_error_duplicated_149 := global_decl_test (new_ast AST_DECL [(new_ast AST_DECL_SPECS [(new_ast AST_TYPE_CHAR [])]); (new_ast AST_INIT_DECLOR_LIST [(new_ast AST_INIT_DECLOR [(new_ast AST_FUNC_DECLOR [(new_identifier_ast AST_IDENT_DECLOR [102]); (new_ast AST_PARAM_LIST [(new_ast AST_PARAM_DECL [(new_ast AST_DECL_SPECS [(new_ast AST_TYPE_INT [])]); (new_identifier_ast AST_IDENT_DECLOR [120])]); (new_ast AST_PARAM_DECL [(new_ast AST_DECL_SPECS [(new_ast AST_TYPE_CHAR [])]); (new_identifier_ast AST_IDENT_DECLOR [121])]); (new_ast AST_PARAM_DECL [(new_ast AST_DECL_SPECS [(new_ast AST_TYPE_CHAR [])]); (new_identifier_ast AST_IDENT_DECLOR [120])]); (new_ast AST_PARAM_DECL [(new_ast AST_DECL_SPECS [(new_ast AST_TYPE_INT [])]); (new_identifier_ast AST_IDENT_DECLOR [121])]); (new_ast AST_PARAM_DECL [(new_ast AST_DECL_SPECS [(new_ast AST_TYPE_INT [])]); (new_ast AST_PTR_DECLOR [(new_identifier_ast AST_IDENT_DECLOR [122])])])])])])])]) None None.
Example test_resolve_param_list_error_duplicated_149_ok : errs test_resolve_param_list_error_duplicated_149 = true. Proof. vm_compute. reflexivity. Qed.
(** tests/resolver/test_declaration_error.c test_resolve_param_error_storage_specifier *)
Definition test_resolve_param_error_storage_specifier := local_decl_test (new_ast AST_DECL [(new_ast AST_DECL_SPECS [(new_ast AST_TYPE_CHAR [])]); (new_ast AST_INIT_DECLOR_LIST [(new_ast AST_INIT_DECLOR [(new_ast AST_FUNC_DECLOR [(new_identifier_ast AST_IDENT_DECLOR [102]); (new_ast AST_PARAM_LIST [(new_ast AST_PARAM_DECL [(new_ast AST_DECL_SPECS [(new_ast AST_TYPE_INT []); (new_ast AST_STG_TYPEDEF [])]); (new_identifier_ast AST_IDENT_DECLOR [120])])])])])])]) None None.
Example test_resolve_param_error_storage_specifier_ok : errs test_resolve_param_error_storage_specifier = true. Proof. vm_compute. reflexivity. Qed.
(** tests/resolver/test_declaration_error.c test_resolve_param_error_storage_specifier_151 *)
Definition test_resolve_param_error_storage_specifier_151 := global_decl_test (new_ast AST_DECL [(new_ast AST_DECL_SPECS [(new_ast AST_TYPE_CHAR [])]); (new_ast AST_INIT_DECLOR_LIST [(new_ast AST_INIT_DECLOR [(new_ast AST_FUNC_DECLOR [(new_identifier_ast AST_IDENT_DECLOR [102]); (new_ast AST_PARAM_LIST [(new_ast AST_PARAM_DECL [(new_ast AST_DECL_SPECS [(new_ast AST_TYPE_INT []); (new_ast AST_STG_TYPEDEF [])]); (new_identifier_ast AST_IDENT_DECLOR [120])])])])])])]) None None.
Example test_resolve_param_error_storage_specifier_151_ok : errs test_resolve_param_error_storage_specifier_151 = true. Proof. vm_compute. reflexivity. Qed.
(** tests/resolver/test_declaration_error.c test_resolve_param_error_invalid_dtype *)
Definition test_resolve_param_error_invalid_dtype := local_decl_test (new_ast AST_DECL [(new_ast AST_DECL_SPECS [(new_ast AST_TYPE_CHAR [])]); (new_ast AST_INIT_DECLOR_LIST [(new_ast AST_INIT_DECLOR [(new_ast AST_FUNC_DECLOR [(new_identifier_ast AST_IDENT_DECLOR [102]); (new_ast AST_PARAM_LIST [(new_ast AST_PARAM_DECL [(new_ast AST_DECL_SPECS [(new_ast AST_TYPE_INT [])]); (new_ast AST_ARRAY_DECLOR [(new_ast AST_FUNC_DECLOR [(new_identifier_ast AST_IDENT_DECLOR [120]); (new_ast AST_PARAM_LIST [])]); (new_iliteral_ast AST_INT_EXPR (new_signed IInt 5))])])])])])])]) None None.
Example test_resolve_param_error_invalid_dtype_ok : errs test_resolve_param_error_invalid_dtype = true. Proof. vm_compute. reflexivity. Qed.
(** tests/resolver/test_declaration_error.c test_resolve_param_error_invalid_dtype_153 *)
Definition test_resolve_param_error_invalid_dtype_153 := global_decl_test (new_ast AST_DECL [(new_ast AST_DECL_SPECS [(new_ast AST_TYPE_CHAR [])]); (new_ast AST_INIT_DECLOR_LIST [(new_ast AST_INIT_DECLOR [(new_ast AST_FUNC_DECLOR [(new_identifier_ast AST_IDENT_DECLOR [102]); (new_ast AST_PARAM_LIST [(new_ast AST_PARAM_DECL [(new_ast AST_DECL_SPECS [(new_ast AST_TYPE_INT [])]); (new_ast AST_ARRAY_DECLOR [(new_ast AST_FUNC_DECLOR [(new_identifier_ast AST_IDENT_DECLOR [120]); (new_ast AST_PARAM_LIST [])]); (new_iliteral_ast AST_INT_EXPR (new_signed IInt 5))])])])])])])]) None None.
Example test_resolve_param_error_invalid_dtype_153_ok : errs test_resolve_param_error_invalid_dtype_153 = true. Proof. vm_compute. reflexivity. Qed.
(** tests/resolver/test_declaration_error.c test_resolve_param_error_incomplete *)
Definition test_resolve_param_error_incomplete := local_decl_test (new_ast AST_DECL [(new_ast AST_DECL_SPECS [(new_ast AST_TYPE_CHAR [])]); (new_ast AST_INIT_DECLOR_LIST [(new_ast AST_INIT_DECLOR [(new_ast AST_FUNC_DECLOR [(new_identifier_ast AST_IDENT_DECLOR [102]); (new_ast AST_PARAM_LIST [(new_ast AST_PARAM_DECL [(new_ast AST_DECL_SPECS [(new_ast AST_TYPE_VOID [])]); (new_identifier_ast AST_IDENT_DECLOR [120])]); (new_ast AST_PARAM_DECL [(new_ast AST_DECL_SPECS [(new_ast AST_TYPE_STRUCT [(new_identifier_ast AST_STRUCT_NAME [83; 116; 114; 117; 99; 116])])]); (new_ast AST_ABS_DECLOR [])])])])])])]) None None.
Example test_resolve_param_error_incomplete_ok : errs test_resolve_param_error_incomplete = true. Proof. vm_compute. reflexivity. Qed.
(** tests/resolver/test_declaration_error.c test_resolve_param_error_incomplete_155 *)
Definition test_resolve_param_error_incomplete_155 := global_decl_test (new_ast AST_DECL [(new_ast AST_DECL_SPECS [(new_ast AST_TYPE_CHAR [])]); (new_ast AST_INIT_DECLOR_LIST [(new_ast AST_INIT_DECLOR [(new_ast AST_FUNC_DECLOR [(new_identifier_ast AST_IDENT_DECLOR [102]); (new_ast AST_PARAM_LIST [(new_ast AST_PARAM_DECL [(new_ast AST_DECL_SPECS [(new_ast AST_TYPE_VOID [])]); (new_identifier_ast AST_IDENT_DECLOR [120])]); (new_ast AST_PARAM_DECL [(new_ast AST_DECL_SPECS [(new_ast AST_TYPE_STRUCT [(new_identifier_ast AST_STRUCT_NAME [83; 116; 114; 117; 99; 116])])]); (new_ast AST_ABS_DECLOR [])])])])])])]) None None.
Example test_resolve_param_error_incomplete_155_ok : errs test_resolve_param_error_incomplete_155 = true. Proof. vm_compute. reflexivity. Qed.
(** tests/resolver/test_declaration_error.c test_resolve_typedef_error_array *)
Definition test_resolve_typedef_error_array := local_decl_test (new_ast AST_DECL [(new_ast AST_DECL_SPECS [(new_ast AST_STG_TYPEDEF []); (new_ast AST_TYPE_VOID [])]); (new_ast AST_INIT_DECLOR_LIST [(new_ast AST_INIT_DECLOR [(new_ast AST_ARRAY_DECLOR [(new_identifier_ast AST_IDENT_DECLOR [97; 114; 114; 97; 121; 95; 116; 121; 112; 101]); (new_iliteral_ast AST_INT_EXPR (new_signed IInt 5))])])])]) None None.
Example test_resolve_typedef_error_array_ok : errs test_resolve_typedef_error_array = true. Proof. vm_compute. reflexivity. Qed.
(** tests/resolver/test_declaration_error.c test_resolve_typedef_error_array_157 *)
Definition test_resolve_typedef_error_array_157 := global_decl_test (new_ast AST_DECL [(new_ast AST_DECL_SPECS [(new_ast AST_STG_TYPEDEF []); (new_ast AST_TYPE_VOID [])]); (new_ast AST_INIT_DECLOR_LIST [(new_ast AST_INIT_DECLOR [(new_ast AST_ARRAY_DECLOR [(new_identifier_ast AST_IDENT_DECLOR [97; 114; 114; 97; 121; 95; 116; 121; 112; 101]); (new_iliteral_ast AST_INT_EXPR (new_signed IInt 5))])])])]) None None.
Example test_resolve_typedef_error_array_157_ok : errs test_resolve_typedef_error_array_157 = true. Proof. vm_compute. reflexivity. Qed.
(** tests/resolver/test_declaration_error.c test_resolve_typedef_error_struct *)
Definition test_resolve_typedef_error_struct := local_decl_test (new_ast AST_DECL [(new_ast AST_DECL_SPECS [(new_ast AST_STG_TYPEDEF []); (new_ast AST_TYPE_STRUCT [(new_ast AST_STRUCT_DECL_LIST [(new_ast AST_STRUCT_DECL [(new_ast AST_SPEC_QUAL_LIST [(new_ast AST_TYPE_VOID [])]); (new_ast AST_STRUCT_DECLOR_LIST [(new_identifier_ast AST_IDENT_DECLOR [109; 101; 109; 98; 101; 114])])])])])]); (new_ast AST_INIT_DECLOR_LIST [(new_ast AST_INIT_DECLOR [(new_identifier_ast AST_IDENT_DECLOR [115; 116; 114; 117; 99; 116; 95; 116; 121; 112; 101])])])]) None None.
Example test_resolve_typedef_error_struct_ok : errs test_resolve_typedef_error_struct = true. Proof. vm_compute. reflexivity. Qed.
(** tests/resolver/test_declaration_error.c test_resolve_typedef_error_struct_159 *)
Definition test_resolve_typedef_error_struct_159 := global_decl_test (new_ast AST_DECL [(new_ast AST_DECL_SPECS [(new_ast AST_STG_TYPEDEF []); (new_ast AST_TYPE_STRUCT [(new_ast AST_STRUCT_DECL_LIST [(new_ast AST_STRUCT_DECL [(new_ast AST_SPEC_QUAL_LIST [(new_ast AST_TYPE_VOID [])]); (new_ast AST_STRUCT_DECLOR_LIST [(new_identifier_ast AST_IDENT_DECLOR [109; 101; 109; 98; 101; 114])])])])])]); (new_ast AST_INIT_DECLOR_LIST [(new_ast AST_INIT_DECLOR [(new_identifier_ast AST_IDENT_DECLOR [115; 116; 114; 117; 99; 116; 95; 116; 121; 112; 101])])])]) None None.
Example test_resolve_typedef_error_struct_159_ok : errs test_resolve_typedef_error_struct_159 = true. Proof. vm_compute. reflexivity. Qed.
(** tests/resolver/test_declaration_error.c test_resolve_typedef_error_function *)
Definition test_resolve_typedef_error_function := local_decl_test (new_ast AST_DECL [(new_ast AST_DECL_SPECS [(new_ast AST_TYPE_STRUCT [(new_identifier_ast AST_STRUCT_NAME [83; 116; 114; 117; 99; 116])]); (new_ast AST_STG_TYPEDEF [])]); (new_ast AST_INIT_DECLOR_LIST [(new_ast AST_INIT_DECLOR [(new_ast AST_FUNC_DECLOR [(new_identifier_ast AST_IDENT_DECLOR [102; 117; 110; 99; 95; 116; 121; 112; 101]); (new_ast AST_PARAM_LIST [])])])])]) None None.
Example test_resolve_typedef_error_function_ok : errs test_resolve_typedef_error_function = true. Proof. vm_compute. reflexivity. Qed.
(** tests/resolver/test_declaration_error.c test_resolve_typedef_error_function_161 *)
Definition test_resolve_typedef_error_function_161 := global_decl_test (new_ast AST_DECL [(new_ast AST_DECL_SPECS [(new_ast AST_TYPE_STRUCT [(new_identifier_ast AST_STRUCT_NAME [83; 116; 114; 117; 99; 116])]); (new_ast AST_STG_TYPEDEF [])]); (new_ast AST_INIT_DECLOR_LIST [(new_ast AST_INIT_DECLOR [(new_ast AST_FUNC_DECLOR [(new_identifier_ast AST_IDENT_DECLOR [102; 117; 110; 99; 95; 116; 121; 112; 101]); (new_ast AST_PARAM_LIST [])])])])]) None None.
Example test_resolve_typedef_error_function_161_ok : errs test_resolve_typedef_error_function_161 = true. Proof. vm_compute. reflexivity. Qed.
(** tests/resolver/test_declaration_error.c test_resolve_init_error_unassignable *)
Definition test_resolve_init_error_unassignable := local_decl_test (new_ast AST_DECL [(new_ast AST_DECL_SPECS [(new_ast AST_TYPE_INT [])]); (new_ast AST_INIT_DECLOR_LIST [(new_ast AST_INIT_DECLOR [(new_ast AST_PTR_DECLOR [(new_identifier_ast AST_IDENT_DECLOR [112])]); (new_iliteral_ast AST_INT_EXPR (new_signed IInt 2))])])]) None None.
Example test_resolve_init_error_unassignable_ok : errs test_resolve_init_error_unassignable = true. Proof. vm_compute. reflexivity. Qed.
(** tests/resolver/test_declaration_error.c test_resolve_init_error_unassignable_163 *)
Definition test_resolve_init_error_unassignable_163 := global_decl_test (new_ast AST_DECL [(new_ast AST_DECL_SPECS [(new_ast AST_TYPE_INT [])]); (new_ast AST_INIT_DECLOR_LIST [(new_ast AST_INIT_DECLOR [(new_ast AST_PTR_DECLOR [(new_identifier_ast AST_IDENT_DECLOR [112])]); (new_iliteral_ast AST_INT_EXPR (new_signed IInt 2))])])]) None None.
Example test_resolve_init_error_unassignable_163_ok : errs test_resolve_init_error_unassignable_163 = true. Proof. vm_compute. reflexivity. Qed.
(** tests/resolver/test_declaration_error.c test_resolve_init_error_function *)
Definition test_resolve_init_error_function := local_decl_test (new_ast AST_DECL [(new_ast AST_DECL_SPECS [(new_ast AST_TYPE_CHAR [])]); (new_ast AST_INIT_DECLOR_LIST [(new_ast AST_INIT_DECLOR [(new_ast AST_FUNC_DECLOR [(new_ast AST_PTR_DECLOR [(new_identifier_ast AST_IDENT_DECLOR [102])]); (new_ast AST_PARAM_LIST [])]); (new_iliteral_ast AST_INT_EXPR (new_signed IInt 9))])])]) None None.
Example test_resolve_init_error_function_ok : errs test_resolve_init_error_function = true. Proof. vm_compute. reflexivity. Qed.
(** tests/resolver/test_declaration_error.c test_resolve_init_error_function_165 *)
Definition test_resolve_init_error_function_165 := global_decl_test (new_ast AST_DECL [(new_ast AST_DECL_SPECS [(new_ast AST_TYPE_CHAR [])]); (new_ast AST_INIT_DECLOR_LIST [(new_ast AST_INIT_DECLOR [(new_ast AST_FUNC_DECLOR [(new_ast AST_PTR_DECLOR [(new_identifier_ast AST_IDENT_DECLOR [102])]); (new_ast AST_PARAM_LIST [])]); (new_iliteral_ast AST_INT_EXPR (new_signed IInt 9))])])]) None None.
Example test_resolve_init_error_function_165_ok : errs test_resolve_init_error_function_165 = true. Proof. vm_compute. reflexivity. Qed.
(** tests/resolver/test_declaration_error.c test_resolve_init_error_typedef_name *)
Definition test_resolve_init_error_typedef_name := local_decl_test (new_ast AST_DECL [(new_ast AST_DECL_SPECS [(new_ast AST_STG_TYPEDEF []); (new_ast AST_TYPE_INT [])]); (new_ast AST_INIT_DECLOR_LIST [(new_ast AST_INIT_DECLOR [(new_identifier_ast AST_IDENT_DECLOR [116; 105; 110; 116]); (new_iliteral_ast AST_INT_EXPR (new_signed IInt 9))])])]) None None.
Example test_resolve_init_error_typedef_name_ok : errs test_resolve_init_error_typedef_name = true. Proof. vm_compute. reflexivity. Qed.
(** tests/resolver/test_declaration_error.c test_resolve_init_error_typedef_name_167 *)
Definition test_resolve_init_error_typedef_name_167 := global_decl_test (new_ast AST_DECL [(new_ast AST_DECL_SPECS [(new_ast AST_STG_TYPEDEF []); (new_ast AST_TYPE_INT [])]); (new_ast AST_INIT_DECLOR_LIST [(new_ast AST_INIT_DECLOR [(new_identifier_ast AST_IDENT_DECLOR [116; 105; 110; 116]); (new_iliteral_ast AST_INT_EXPR (new_signed IInt 9))])])]) None None.
Example test_resolve_init_error_typedef_name_167_ok : errs test_resolve_init_error_typedef_name_167 = true. Proof. vm_compute. reflexivity. Qed.
(** tests/resolver/test_declaration_error.c test_resolve_init_error_nested_list_scalar *)
Definition test_resolve_init_error_nested_list_scalar := local_decl_test (new_ast AST_DECL [(new_ast AST_DECL_SPECS [(new_ast AST_TYPE_INT [])]); (new_ast AST_INIT_DECLOR_LIST [(new_ast AST_INIT_DECLOR [(new_identifier_ast AST_IDENT_DECLOR [115; 99; 97; 108; 97; 114]); (new_ast AST_INIT_LIST [(new_ast AST_INIT_LIST [(new_iliteral_ast AST_INT_EXPR (new_signed IInt 9))])])])])]) None None.
Example test_resolve_init_error_nested_list_scalar_ok : errs test_resolve_init_error_nested_list_scalar = true. Proof. vm_compute. reflexivity. Qed.
(** tests/resolver/test_declaration_error.c test_resolve_init_error_nested_list_scalar_169 *)
Definition test_resolve_init_error_nested_list_scalar_169 := global_decl_test (new_ast AST_DECL [(new_ast AST_DECL_SPECS [(new_ast AST_TYPE_INT [])]); (new_ast AST_INIT_DECLOR_LIST [(new_ast AST_INIT_DECLOR [(new_identifier_ast AST_IDENT_DECLOR [115; 99; 97; 108; 97; 114]); (new_ast AST_INIT_LIST [(new_ast AST_INIT_LIST [(new_iliteral_ast AST_INT_EXPR (new_signed IInt 9))])])])])]) None None.
Example test_resolve_init_error_nested_list_scalar_169_ok : errs test_resolve_init_error_nested_list_scalar_169 = true. Proof. vm_compute. reflexivity. Qed.
(** tests/resolver/test_declaration_error.c test_resolve_init_error_too_long_scalar *)
Definition test_resolve_init_error_too_long_scalar := local_decl_test (new_ast AST_DECL [(new_ast AST_DECL_SPECS [(new_ast AST_TYPE_INT [])]); (new_ast AST_INIT_DECLOR_LIST [(new_ast AST_INIT_DECLOR [(new_identifier_ast AST_IDENT_DECLOR [115; 99; 97; 108; 97; 114]); (new_ast AST_INIT_LIST [(new_iliteral_ast AST_INT_EXPR (new_signed IInt 2)); (new_iliteral_ast AST_INT_EXPR (new_signed IInt 1))])])])]) None None.
Example test_resolve_init_error_too_long_scalar_ok : errs test_resolve_init_error_too_long_scalar = true. Proof. vm_compute. reflexivity. Qed.
(** tests/resolver/test_declaration_error.c test_resolve_init_error_too_long_scalar_171 *)
Definition test_resolve_init_error_too_long_scalar_171 := global_decl_test (new_ast AST_DECL [(new_ast AST_DECL_SPECS [(new_ast AST_TYPE_INT [])]); (new_ast AST_INIT_DECLOR_LIST [(new_ast AST_INIT_DECLOR [(new_identifier_ast AST_IDENT_DECLOR [115; 99; 97; 108; 97; 114]); (new_ast AST_INIT_LIST [(new_iliteral_ast AST_INT_EXPR (new_signed IInt 2)); (new_iliteral_ast AST_INT_EXPR (new_signed IInt 1))])])])]) None None.
Example test_resolve_init_error_too_long_scalar_171_ok : errs test_resolve_init_error_too_long_scalar_171 = true. Proof. vm_compute. reflexivity. Qed.
(** tests/resolver/test_declaration_error.c test_resolve_init_error_scalar_array *)
Definition test_resolve_init_error_scalar_array := local_decl_test (new_ast AST_DECL [(new_ast AST_DECL_SPECS [(new_ast AST_TYPE_CHAR [])]); (new_ast AST_INIT_DECLOR_LIST [(new_ast AST_INIT_DECLOR [(new_ast AST_ARRAY_DECLOR [(new_identifier_ast AST_IDENT_DECLOR [97; 114; 114; 97; 121]); (new_iliteral_ast AST_INT_EXPR (new_signed IInt 1))]); (new_iliteral_ast AST_INT_EXPR (new_signed IInt 3))])])]) None None.
Example test_resolve_init_error_scalar_array_ok : errs test_resolve_init_error_scalar_array = true. Proof. vm_compute. reflexivity. Qed.
(** tests/resolver/test_declaration_error.c test_resolve_init_error_scalar_array_173 *)
Definition test_resolve_init_error_scalar_array_173 := global_decl_test (new_ast AST_DECL [(new_ast AST_DECL_SPECS [(new_ast AST_TYPE_CHAR [])]); (new_ast AST_INIT_DECLOR_LIST [(new_ast AST_INIT_DECLOR [(new_ast AST_ARRAY_DECLOR [(new_identifier_ast AST_IDENT_DECLOR [97; 114; 114; 97; 121]); (new_iliteral_ast AST_INT_EXPR (new_signed IInt 1))]); (new_iliteral_ast AST_INT_EXPR (new_signed IInt 3))])])]) None None.
Example test_resolve_init_error_scalar_array_173_ok : errs test_resolve_init_error_scalar_array_173 = true. Proof. vm_compute. reflexivity. Qed.
(** tests/resolver/test_declaration_error.c test_resolve_init_error_too_long_array *)
Definition test_resolve_init_error_too_long_array := local_decl_test (new_ast AST_DECL [(new_ast AST_DECL_SPECS [(new_ast AST_TYPE_CHAR [])]); (new_ast AST_INIT_DECLOR_LIST [(new_ast AST_INIT_DECLOR [(new_ast AST_ARRAY_DECLOR [(new_identifier_ast AST_IDENT_DECLOR [97; 114; 114; 97; 121]); (new_iliteral_ast AST_INT_EXPR (new_signed IInt 2))]); (new_ast AST_INIT_LIST [(new_iliteral_ast AST_CHAR_EXPR (new_signed IInt 88)); (new_iliteral_ast AST_CHAR_EXPR (new_signed IInt 89)); (new_iliteral_ast AST_CHAR_EXPR (new_signed IInt 90))])])])]) None None.
Example test_resolve_init_error_too_long_array_ok : errs test_resolve_init_error_too_long_array = true. Proof. vm_compute. reflexivity. Qed.
(** tests/resolver/test_declaration_error.c test_resolve_init_error_too_long_array_175 *)
Definition test_resolve_init_error_too_long_array_175 := global_decl_test (new_ast AST_DECL [(new_ast AST_DECL_SPECS [(new_ast AST_TYPE_CHAR [])]); (new_ast AST_INIT_DECLOR_LIST [(new_ast AST_INIT_DECLOR [(new_ast AST_ARRAY_DECLOR [(new_identifier_ast AST_IDENT_DECLOR [97; 114; 114; 97; 121]); (new_iliteral_ast AST_INT_EXPR (new_signed IInt 2))]); (new_ast AST_INIT_LIST [(new_iliteral_ast AST_CHAR_EXPR (new_signed IInt 88)); (new_iliteral_ast AST_CHAR_EXPR (new_signed IInt 89)); (new_iliteral_ast AST_CHAR_EXPR (new_signed IInt 90))])])])]) None None.
Example test_resolve_init_error_too_long_array_175_ok : errs test_resolve_init_error_too_long_array_175 = true. Proof. vm_compute. reflexivity. Qed.
(** tests/resolver/test_declaration_error.c test_resolve_init_error_too_long_sliteral *)
Definition test_resolve_init_error_too_long_sliteral := local_decl_test (new_ast AST_DECL [(new_ast AST_DECL_SPECS [(new_ast AST_TYPE_CHAR [])]); (new_ast AST_INIT_DECLOR_LIST [(new_ast AST_INIT_DECLOR [(new_ast AST_ARRAY_DECLOR [(new_identifier_ast AST_IDENT_DECLOR [97; 114; 114; 97; 121]); (new_iliteral_ast AST_INT_EXPR (new_signed IInt 3))]); (new_sliteral_ast AST_STRING_EXPR [116; 101; 115; 116; 0])])])]) None None.
Example test_resolve_init_error_too_long_sliteral_ok : errs test_resolve_init_error_too_long_sliteral = true. Proof. vm_compute. reflexivity. Qed.
(** tests/resolver/test_declaration_error.c test_resolve_init_error_too_long_sliteral_177 *)
Definition test_resolve_init_error_too_long_sliteral_177 := global_decl_test (new_ast AST_DECL [(new_ast AST_DECL_SPECS [(new_ast AST_TYPE_CHAR [])]); (new_ast AST_INIT_DECLOR_LIST [(new_ast AST_INIT_DECLOR [(new_ast AST_ARRAY_DECLOR [(new_identifier_ast AST_IDENT_DECLOR [97; 114; 114; 97; 121]); (new_iliteral_ast AST_INT_EXPR (new_signed IInt 3))]); (new_sliteral_ast AST_STRING_EXPR [116; 101; 115; 116; 0])])])]) None None.
Example test_resolve_init_error_too_long_sliteral_177_ok : errs test_resolve_init_error_too_long_sliteral_177 = true. Proof. vm_compute. reflexivity. Qed.
(** tests/resolver/test_declaration_error.c test_resolve_init_error_array_child *)
Definition test_resolve_init_error_array_child := local_decl_test (new_ast AST_DECL [(new_ast AST_DECL_SPECS [(new_ast AST_TYPE_CHAR [])]); (new_ast AST_INIT_DECLOR_LIST [(new_ast AST_INIT_DECLOR [(new_ast AST_ARRAY_DECLOR [(new_identifier_ast AST_IDENT_DECLOR [97; 114; 114; 97; 121]); (new_iliteral_ast AST_INT_EXPR (new_signed IInt 3))]); (new_ast AST_INIT_LIST [(new_ast AST_INIT_LIST [(new_ast AST_INIT_LIST [(new_iliteral_ast AST_CHAR_EXPR (new_signed IInt 88))])]); (new_ast AST_INIT_LIST [(new_ast AST_INIT_LIST [(new_iliteral_ast AST_CHAR_EXPR (new_signed IInt 89))])]); (new_iliteral_ast AST_CHAR_EXPR (new_signed IInt 90))])])])]) None None.
Example test_resolve_init_error_array_child_ok : errs test_resolve_init_error_array_child = true. Proof. vm_compute. reflexivity. Qed.
(** tests/resolver/test_declaration_error.c test_resolve_init_error_array_child_179 *)
Definition test_resolve_init_error_array_child_179 := global_decl_test (new_ast AST_DECL [(new_ast AST_DECL_SPECS [(new_ast AST_TYPE_CHAR [])]); (new_ast AST_INIT_DECLOR_LIST [(new_ast AST_INIT_DECLOR [(new_ast AST_ARRAY_DECLOR [(new_identifier_ast AST_IDENT_DECLOR [97; 114; 114; 97; 121]); (new_iliteral_ast AST_INT_EXPR (new_signed IInt 3))]); (new_ast AST_INIT_LIST [(new_ast AST_INIT_LIST [(new_ast AST_INIT_LIST [(new_iliteral_ast AST_CHAR_EXPR (new_signed IInt 88))])]); (new_ast AST_INIT_LIST [(new_ast AST_INIT_LIST [(new_iliteral_ast AST_CHAR_EXPR (new_signed IInt 89))])]); (new_iliteral_ast AST_CHAR_EXPR (new_signed IInt 90))])])])]) None None.
Example test_resolve_init_error_array_child_179_ok : errs test_resolve_init_error_array_child_179 = true. Proof. vm_compute. reflexivity. Qed.
(** tests/resolver/test_declaration_error.c test_resolve_init_error_too_long_nested_array *)
Definition test_resolve_init_error_too_long_nested_array := local_decl_test (new_ast AST_DECL [(new_ast AST_DECL_SPECS [(new_ast AST_TYPE_INT [])]); (new_ast AST_INIT_DECLOR_LIST [(new_ast AST_INIT_DECLOR [(new_ast AST_ARRAY_DECLOR [(new_ast AST_ARRAY_DECLOR [(new_identifier_ast AST_IDENT_DECLOR [97; 114; 114; 97; 121]); (new_iliteral_ast AST_INT_EXPR (new_signed IInt 2))]); (new_iliteral_ast AST_INT_EXPR (new_signed IInt 2))]); (new_ast AST_INIT_LIST [(new_ast AST_INIT_LIST [(new_iliteral_ast AST_INT_EXPR (new_signed IInt 6))]); (new_iliteral_ast AST_INT_EXPR (new_signed IInt 1)); (new_iliteral_ast AST_INT_EXPR (new_signed IInt 2)); (new_iliteral_ast AST_INT_EXPR (new_signed IInt 3))])])])]) None None.
Example test_resolve_init_error_too_long_nested_array_ok : errs test_resolve_init_error_too_long_nested_array = true. Proof. vm_compute. reflexivity. Qed.
(** tests/resolver/test_declaration_error.c test_resolve_init_error_too_long_nested_array_181 *)
Definition test_resolve_init_error_too_long_nested_array_181 := global_decl_test (new_ast AST_DECL [(new_ast AST_DECL_SPECS [(new_ast AST_TYPE_INT [])]); (new_ast AST_INIT_DECLOR_LIST [(new_ast AST_INIT_DECLOR [(new_ast AST_ARRAY_DECLOR [(new_ast AST_ARRAY_DECLOR [(new_identifier_ast AST_IDENT_DECLOR [97; 114; 114; 97; 121]); (new_iliteral_ast AST_INT_EXPR (new_signed IInt 2))]); (new_iliteral_ast AST_INT_EXPR (new_signed IInt 2))]); (new_ast AST_INIT_LIST [(new_ast AST_INIT_LIST [(new_iliteral_ast AST_INT_EXPR (new_signed IInt 6))]); (new_iliteral_ast AST_INT_EXPR (new_signed IInt 1)); (new_iliteral_ast AST_INT_EXPR (new_signed IInt 2)); (new_iliteral_ast AST_INT_EXPR (new_signed IInt 3))])])])]) None None.
Example test_resolve_init_error_too_long_nested_array_181_ok : errs test_resolve_init_error_too_long_nested_array_181 = true. Proof. vm_compute. reflexivity. Qed.
(** tests/resolver/test_declaration_error.c test_resolve_init_error_scalar_struct *)
Definition test_resolve_init_error_scalar_struct := local_decl_test (new_ast AST_DECL [(new_ast AST_DECL_SPECS [(new_ast AST_TYPE_STRUCT [(new_identifier_ast AST_STRUCT_NAME [83; 116; 114; 117; 99; 116])])]); (new_ast AST_INIT_DECLOR_LIST [(new_ast AST_INIT_DECLOR [(new_identifier_ast AST_IDENT_DECLOR [115; 116; 114; 117; 99; 116; 117; 114; 101]); (new_iliteral_ast AST_INT_EXPR (new_signed IInt 4))])])]) None (Some [(fun t => tag_define_struct t [83; 116; 114; 117; 99; 116] [([109; 101; 109; 98; 101; 114], DTYPE_INT)])]).
Example test_resolve_init_error_scalar_struct_ok : errs test_resolve_init_error_scalar_struct = true. Proof. vm_compute. reflexivity. Qed.
(** tests/resolver/test_declaration_error.c test_resolve_init_error_scalar_struct_183 *)
Definition test_resolve_init_error_scalar_struct_183 := global_decl_test (new_ast AST_DECL [(new_ast AST_DECL_SPECS [(new_ast AST_TYPE_STRUCT [(new_identifier_ast AST_STRUCT_NAME [83; 116; 114; 117; 99; 116])])]); (new_ast AST_INIT_DECLOR_LIST [(new_ast AST_INIT_DECLOR [(new_identifier_ast AST_IDENT_DECLOR [115; 116; 114; 117; 99; 116; 117; 114; 101]); (new_iliteral_ast AST_INT_EXPR (new_signed IInt 4))])])]) None (Some [(fun t => tag_define_struct t [83; 116; 114; 117; 99; 116] [([109; 101; 109; 98; 101; 114], DTYPE_INT)])]).
Example test_resolve_init_error_scalar_struct_183_ok : errs test_resolve_init_error_scalar_struct_183 = true. Proof. vm_compute. reflexivity. Qed.
(** tests/resolver/test_declaration_error.c test_resolve_init_error_too_long_struct *)
Definition test_resolve_init_error_too_long_struct := local_decl_test (new_ast AST_DECL [(new_ast AST_DECL_SPECS [(new_ast AST_TYPE_STRUCT [(new_ast AST_STRUCT_DECL_LIST [(new_ast AST_STRUCT_DECL [(new_ast AST_SPEC_QUAL_LIST [(new_ast AST_TYPE_CHAR [])]); (new_ast AST_STRUCT_DECLOR_LIST [(new_identifier_ast AST_IDENT_DECLOR [120])])]); (new_ast AST_STRUCT_DECL [(new_ast AST_SPEC_QUAL_LIST [(new_ast AST_TYPE_INT [])]); (new_ast AST_STRUCT_DECLOR_LIST [(new_identifier_ast AST_IDENT_DECLOR [121])])])])])]); (new_ast AST_INIT_DECLOR_LIST [(new_ast AST_INIT_DECLOR [(new_identifier_ast AST_IDENT_DECLOR [115; 116; 114; 117; 99; 116; 117; 114; 101]); (new_ast AST_INIT_LIST [(new_iliteral_ast AST_INT_EXPR (new_signed IInt 1)); (new_iliteral_ast AST_INT_EXPR (new_signed IInt 2)); (new_iliteral_ast AST_INT_EXPR (new_signed IInt 4))])])])]) None None.
Example test_resolve_init_error_too_long_struct_ok : errs test_resolve_init_error_too_long_struct = true. Proof. vm_compute. reflexivity. Qed.
(** tests/resolver/test_declaration_error.c test_resolve_init_error_too_long_struct_185 *)
Definition test_resolve_init_error_too_long_struct_185 := local_decl_test (new_ast AST_DECL [(new_ast AST_DECL_SPECS [(new_ast AST_TYPE_STRUCT [(new_ast AST_STRUCT_DECL_LIST [(new_ast AST_STRUCT_DECL [(new_ast AST_SPEC_QUAL_LIST [(new_ast AST_TYPE_CHAR [])]); (new_ast AST_STRUCT_DECLOR_LIST [(new_identifier_ast AST_IDENT_DECLOR [120])])]); (new_ast AST_STRUCT_DECL [(new_ast AST_SPEC_QUAL_LIST [(new_ast AST_TYPE_INT [])]); (new_ast AST_STRUCT_DECLOR_LIST [(new_identifier_ast AST_IDENT_DECLOR [121])])])])])]); (new_ast AST_INIT_DECLOR_LIST [(new_ast AST_INIT_DECLOR [(new_identifier_ast AST_IDENT_DECLOR [115; 116; 114; 117; 99; 116; 117; 114; 101]); (new_ast AST_INIT_LIST [(new_iliteral_ast AST_INT_EXPR (new_signed IInt 1)); (new_iliteral_ast AST_INT_EXPR (new_signed IInt 2)); (new_iliteral_ast AST_INT_EXPR (new_signed IInt 4))])])])]) None None.
Example test_resolve_init_error_too_long_struct_185_ok : errs test_resolve_init_error_too_long_struct_185 = true. Proof. vm_compute. reflexivity. Qed.
(** tests/resolver/test_declaration_error.c test_resolve_init_error_struct_child *)
Definition test_resolve_init_error_struct_child := local_decl_test (new_ast AST_DECL [(new_ast AST_DECL_SPECS [(new_ast AST_TYPE_STRUCT [(new_identifier_ast AST_STRUCT_NAME [83; 116; 114; 117; 99; 116])])]); (new_ast AST_INIT_DECLOR_LIST [(new_ast AST_INIT_DECLOR [(new_identifier_ast AST_IDENT_DECLOR [115; 116; 114; 117; 99; 116; 117; 114; 101]); (new_ast AST_INIT_LIST [(new_ast AST_INIT_LIST [(new_ast AST_INIT_LIST [(new_iliteral_ast AST_CHAR_EXPR (new_signed IInt 88))])]); (new_iliteral_ast AST_CHAR_EXPR (new_signed IInt 89)); (new_ast AST_INIT_LIST [(new_ast AST_INIT_LIST [(new_iliteral_ast AST_CHAR_EXPR (new_signed IInt 90))])])])])])]) None (Some [(fun t => tag_define_struct t [83; 116; 114; 117; 99; 116] [([120], DTYPE_CHAR); ([121], DTYPE_INT); ([122], DTYPE_CHAR)])]).
Example test_resolve_init_error_struct_child_ok : errs test_resolve_init_error_struct_child = true. Proof. vm_compute. reflexivity. Qed.
(** tests/resolver/test_declaration_error.c test_resolve_init_error_struct_child_187 *)
Definition test_resolve_init_error_struct_child_187 := global_decl_test (new_ast AST_DECL [(new_ast AST_DECL_SPECS [(new_ast AST_TYPE_STRUCT [(new_identifier_ast AST_STRUCT_NAME [83; 116; 114; 117; 99; 116])])]); (new_ast AST_INIT_DECLOR_LIST [(new_ast AST_INIT_DECLOR [(new_identifier_ast AST_IDENT_DECLOR [115; 116; 114; 117; 99; 116; 117; 114; 101]); (new_ast AST_INIT_LIST [(new_ast AST_INIT_LIST [(new_ast AST_INIT_LIST [(new_iliteral_ast AST_CHAR_EXPR (new_signed IInt 88))])]); (new_iliteral_ast AST_CHAR_EXPR (new_signed IInt 89)); (new_ast AST_INIT_LIST [(new_ast AST_INIT_LIST [(new_iliteral_ast AST_CHAR_EXPR (new_signed IInt 90))])])])])])]) None (Some [(fun t => tag_define_struct t [83; 116; 114; 117; 99; 116] [([120], DTYPE_CHAR); ([121], DTYPE_INT); ([122], DTYPE_CHAR)])]).
Example test_resolve_init_error_struct_child_187_ok : errs test_resolve_init_error_struct_child_187 = true. Proof. vm_compute. reflexivity. Qed.
(** tests/resolver/test_declaration_error.c test_resolve_init_error_too_long_nested_struct *)
Definition test_resolve_init_error_too_long_nested_struct := local_decl_test (new_ast AST_DECL [(new_ast AST_DECL_SPECS [(new_ast AST_TYPE_STRUCT [(new_identifier_ast AST_STRUCT_NAME [83; 116; 114; 117; 99; 116])])]); (new_ast AST_INIT_DECLOR_LIST [(new_ast AST_INIT_DECLOR [(new_identifier_ast AST_IDENT_DECLOR [115; 116; 114; 117; 99; 116; 117; 114; 101]); (new_ast AST_INIT_LIST [(new_ast AST_INIT_LIST [(new_iliteral_ast AST_INT_EXPR (new_signed IInt 6))]); (new_iliteral_ast AST_INT_EXPR (new_signed IInt 1)); (new_iliteral_ast AST_INT_EXPR (new_signed IInt 2)); (new_iliteral_ast AST_INT_EXPR (new_signed IInt 3))])])])]) None (Some [(fun t => tag_define_struct t [67; 104; 105; 108; 100] [([120], DTYPE_CHAR); ([121], DTYPE_INT)]); (fun t => tag_define_struct t [83; 116; 114; 117; 99; 116] [([102; 105; 114; 115; 116], (DTYPE_NSTRUCT [67; 104; 105; 108; 100] 8 4)); ([115; 101; 99; 111; 110; 100], (DTYPE_NSTRUCT [67; 104; 105; 108; 100] 8 4))])]).
Example test_resolve_init_error_too_long_nested_struct_ok : errs test_resolve_init_error_too_long_nested_struct = true. Proof. vm_compute. reflexivity. Qed.
(** tests/resolver/test_declaration_error.c test_resolve_init_error_too_long_nested_struct_189 *)
Definition test_resolve_init_error_too_long_nested_struct_189 := global_decl_test (new_ast AST_DECL [(new_ast AST_DECL_SPECS [(new_ast AST_TYPE_STRUCT [(new_identifier_ast AST_STRUCT_NAME [83; 116; 114; 117; 99; 116])])]); (new_ast AST_INIT_DECLOR_LIST [(new_ast AST_INIT_DECLOR [(new_identifier_ast AST_IDENT_DECLOR [115; 116; 114; 117; 99; 116; 117; 114; 101]); (new_ast AST_INIT_LIST [(new_ast AST_INIT_LIST [(new_iliteral_ast AST_INT_EXPR (new_signed IInt 6))]); (new_iliteral_ast AST_INT_EXPR (new_signed IInt 1)); (new_iliteral_ast AST_INT_EXPR (new_signed IInt 2)); (new_iliteral_ast AST_INT_EXPR (new_signed IInt 3))])])])]) None (Some [(fun t => tag_define_struct t [67; 104; 105; 108; 100] [([120], DTYPE_CHAR); ([121], DTYPE_INT)]); (fun t => tag_define_struct t [83; 116; 114; 117; 99; 116] [([102; 105; 114; 115; 116], (DTYPE_NSTRUCT [67; 104; 105; 108; 100] 8 4)); ([115; 101; 99; 111; 110; 100], (DTYPE_NSTRUCT [67; 104; 105; 108; 100] 8 4))])]).
Example test_resolve_init_error_too_long_nested_struct_189_ok : errs test_resolve_init_error_too_long_nested_struct_189 = true. Proof. vm_compute. reflexivity. Qed.
(** tests/resolver/test_expression.c test_resolve_assignment_expr *)
Definition test_resolve_assignment_expr := expr_test (new_ast AST_ASSIGN_EXPR [(new_ast AST_INDIR_EXPR [(new_identifier_ast AST_IDENT_EXPR [120])]); (new_ast AST_ASSIGN_EXPR [(new_identifier_ast AST_IDENT_EXPR [121]); (new_iliteral_ast AST_INT_EXPR (new_signed IInt 0))])]) (Some [(fun t => sym_define_memory t [120] (DTYPE_POINTER DTYPE_CHAR)); (fun t => sym_define_memory t [121] DTYPE_INT)]) None.
Example test_resolve_assignment_expr_ok : got test_resolve_assignment_expr = Some (new_dtyped_srt SRT_ASSIGN_EXPR DTYPE_CHAR [(new_dtyped_srt SRT_ADDR_EXPR (DTYPE_POINTER DTYPE_CHAR) [(new_dtyped_srt SRT_INDIR_EXPR DTYPE_CHAR [(new_identifier_srt SRT_IDENT_EXPR (DTYPE_POINTER DTYPE_CHAR) [120])])]); (new_dtyped_srt SRT_CAST_EXPR DTYPE_CHAR [(new_dtyped_srt SRT_ASSIGN_EXPR DTYPE_INT [(new_dtyped_srt SRT_ADDR_EXPR (DTYPE_POINTER DTYPE_INT) [(new_identifier_srt SRT_IDENT_EXPR DTYPE_INT [121])]); (new_iliteral_srt DTYPE_INT (new_signed IInt 0))])])]). Proof. vm_compute. reflexivity. Qed.
(** tests/resolver/test_expression.c test_resolve_multiply_assignment_expr *)
Definition test_resolve_multiply_assignment_expr := expr_test (new_ast AST_MUL_ASSIGN_EXPR [(new_identifier_ast AST_IDENT_EXPR [120]); (new_identifier_ast AST_IDENT_EXPR [121])]) (Some [(fun t => sym_define_memory t [120] DTYPE_INT); (fun t => sym_define_memory t [121] DTYPE_CHAR)]) None.
Example test_resolve_multiply_assignment_expr_ok : got test_resolve_multiply_assignment_expr = Some (new_dtyped_srt SRT_ASSIGN_EXPR DTYPE_INT [(new_dtyped_srt SRT_ADDR_EXPR (DTYPE_POINTER DTYPE_INT) [(new_identifier_srt SRT_IDENT_EXPR DTYPE_INT [120])]); (new_dtyped_srt SRT_MUL_EXPR DTYPE_INT [(new_identifier_srt SRT_IDENT_EXPR DTYPE_INT [120]); (new_dtyped_srt SRT_CAST_EXPR DTYPE_INT [(new_identifier_srt SRT_IDENT_EXPR DTYPE_CHAR [121])])])]). Proof. vm_compute. reflexivity. Qed.
(** tests/resolver/test_expression.c test_resolve_division_assignment_expr *)
Definition test_resolve_division_assignment_expr := expr_test (new_ast AST_DIV_ASSIGN_EXPR [(new_identifier_ast AST_IDENT_EXPR [120]); (new_identifier_ast AST_IDENT_EXPR [121])]) (Some [(fun t => sym_define_memory t [120] DTYPE_CHAR); (fun t => sym_define_memory t [121] DTYPE_INT)]) None.
Example test_resolve_division_assignment_expr_ok : got test_resolve_division_assignment_expr = Some (new_dtyped_srt SRT_ASSIGN_EXPR DTYPE_CHAR [(new_dtyped_srt SRT_ADDR_EXPR (DTYPE_POINTER DTYPE_CHAR) [(new_identifier_srt SRT_IDENT_EXPR DTYPE_CHAR [120])]); (new_dtyped_srt SRT_CAST_EXPR DTYPE_CHAR [(new_dtyped_srt SRT_DIV_EXPR DTYPE_INT [(new_dtyped_srt SRT_CAST_EXPR DTYPE_INT [(new_identifier_srt SRT_IDENT_EXPR DTYPE_CHAR [120])]); (new_identifier_srt SRT_IDENT_EXPR DTYPE_INT [121])])])]). Proof. vm_compute. reflexivity. Qed.
(** tests/resolver/test_expression.c test_resolve_modulo_assignment_expr *)
Definition test_resolve_modulo_assignment_expr := expr_test (new_ast AST_MOD_ASSIGN_EXPR [(new_identifier_ast AST_IDENT_EXPR [120]); (new_identifier_ast AST_IDENT_EXPR [121])]) (Some [(fun t => sym_define_memory t [120] DTYPE_INT); (fun t => sym_define_memory t [121] DTYPE_INT)]) None.
Example test_resolve_modulo_assignment_expr_ok : got test_resolve_modulo_assignment_expr = Some (new_dtyped_srt SRT_ASSIGN_EXPR DTYPE_INT [(new_dtyped_srt SRT_ADDR_EXPR (DTYPE_POINTER DTYPE_INT) [(new_identifier_srt SRT_IDENT_EXPR DTYPE_INT [120])]); (new_dtyped_srt SRT_MOD_EXPR DTYPE_INT [(new_identifier_srt SRT_IDENT_EXPR DTYPE_INT [120]); (new_identifier_srt SRT_IDENT_EXPR DTYPE_INT [121])])]). Proof. vm_compute. reflexivity. Qed.
(** tests/resolver/test_expression.c test_resolve_add_assignment_expr *)
Definition test_resolve_add_assignment_expr := expr_test (new_ast AST_ADD_ASSIGN_EXPR [(new_identifier_ast AST_IDENT_EXPR [120]); (new_identifier_ast AST_IDENT_EXPR [121])]) (Some [(fun t => sym_define_memory t [120] DTYPE_INT); (fun t => sym_define_memory t [121] DTYPE_CHAR)]) None.
Example test_resolve_add_assignment_expr_ok : got test_resolve_add_assignment_expr = Some (new_dtyped_srt SRT_ASSIGN_EXPR DTYPE_INT [(new_dtyped_srt SRT_ADDR_EXPR (DTYPE_POINTER DTYPE_INT) [(new_identifier_srt SRT_IDENT_EXPR DTYPE_INT [120])]); (new_dtyped_srt SRT_ADD_EXPR DTYPE_INT [(new_identifier_srt SRT_IDENT_EXPR DTYPE_INT [120]); (new_dtyped_srt SRT_CAST_EXPR DTYPE_INT [(new_identifier_srt SRT_IDENT_EXPR DTYPE_CHAR [121])])])]). Proof. vm_compute. reflexivity. Qed.
(** tests/resolver/test_expression.c test_resolve_pointer_add_assignment_expr *)
Definition test_resolve_pointer_add_assignment_expr := expr_test (new_ast AST_ADD_ASSIGN_EXPR [(new_identifier_ast AST_IDENT_EXPR [112]); (new_iliteral_ast AST_INT_EXPR (new_signed IInt 4))]) (Some [(fun t => sym_define_memory t [112] (DTYPE_POINTER DTYPE_INT))]) None.
Example test_resolve_pointer_add_assignment_expr_ok : got test_resolve_pointer_add_assignment_expr = Some (new_dtyped_srt SRT_ASSIGN_EXPR (DTYPE_POINTER DTYPE_INT) [(new_dtyped_srt SRT_ADDR_EXPR (DTYPE_POINTER (DTYPE_POINTER DTYPE_INT)) [(new_identifier_srt SRT_IDENT_EXPR (DTYPE_POINTER DTYPE_INT) [112])]); (new_dtyped_srt SRT_PADD_EXPR (DTYPE_POINTER DTYPE_INT) [(new_identifier_srt SRT_IDENT_EXPR (DTYPE_POINTER DTYPE_INT) [112]); (new_iliteral_srt DTYPE_INT (new_signed IInt 4))])]). Proof. vm_compute. reflexivity. Qed.
(** tests/resolver/test_expression.c test_resolve_subtract_assignment_expr *)
Definition test_resolve_subtract_assignment_expr := expr_test (new_ast AST_SUB_ASSIGN_EXPR [(new_identifier_ast AST_IDENT_EXPR [120]); (new_iliteral_ast AST_INT_EXPR (new_signed IInt 2))]) (Some [(fun t => sym_define_memory t [120] DTYPE_INT)]) None.
Example test_resolve_subtract_assignment_expr_ok : got test_resolve_subtract_assignment_expr = Some (new_dtyped_srt SRT_ASSIGN_EXPR DTYPE_INT [(new_dtyped_srt SRT_ADDR_EXPR (DTYPE_POINTER DTYPE_INT) [(new_identifier_srt SRT_IDENT_EXPR DTYPE_INT [120])]); (new_dtyped_srt SRT_SUB_EXPR DTYPE_INT [(new_identifier_srt SRT_IDENT_EXPR DTYPE_INT [120]); (new_iliteral_srt DTYPE_INT (new_signed IInt 2))])]). Proof. vm_compute. reflexivity. Qed.
(** tests/resolver/test_expression.c test_resolve_pointer_subtract_assignment_expr *)
Definition test_resolve_pointer_subtract_assignment_expr := expr_test (new_ast AST_SUB_ASSIGN_EXPR [(new_identifier_ast AST_IDENT_EXPR [112]); (new_ast AST_NEG_EXPR [(new_iliteral_ast AST_INT_EXPR (new_signed IInt 8))])]) (Some [(fun t => sym_define_memory t [112] (DTYPE_POINTER DTYPE_INT))]) None.
Example test_resolve_pointer_subtract_assignment_expr_ok : got test_resolve_pointer_subtract_assignment_expr = Some (new_dtyped_srt SRT_ASSIGN_EXPR (DTYPE_POINTER DTYPE_INT) [(new_dtyped_srt SRT_ADDR_EXPR (DTYPE_POINTER (DTYPE_POINTER DTYPE_INT)) [(new_identifier_srt SRT_IDENT_EXPR (DTYPE_POINTER DTYPE_INT) [112])]); (new_dtyped_srt SRT_PSUB_EXPR (DTYPE_POINTER DTYPE_INT) [(new_identifier_srt SRT_IDENT_EXPR (DTYPE_POINTER DTYPE_INT) [112]); (new_dtyped_srt SRT_NEG_EXPR DTYPE_INT [(new_iliteral_srt DTYPE_INT (new_signed IInt 8))])])]). Proof. vm_compute. reflexivity. Qed.
(** tests/resolver/test_expression.c test_resolve_lshift_assignment_expr *)
Definition test_resolve_lshift_assignment_expr := expr_test (new_ast AST_LSHIFT_ASSIGN_EXPR [(new_identifier_ast AST_IDENT_EXPR [120]); (new_iliteral_ast AST_INT_EXPR (new_signed IInt 2))]) (Some [(fun t => sym_define_memory t [120] DTYPE_CHAR)]) None.
Example test_resolve_lshift_assignment_expr_ok : got test_resolve_lshift_assignment_expr = Some (new_dtyped_srt SRT_ASSIGN_EXPR DTYPE_CHAR [(new_dtyped_srt SRT_ADDR_EXPR (DTYPE_POINTER DTYPE_CHAR) [(new_identifier_srt SRT_IDENT_EXPR DTYPE_CHAR [120])]); (new_dtyped_srt SRT_CAST_EXPR DTYPE_CHAR [(new_dtyped_srt SRT_LSHIFT_EXPR DTYPE_INT [(new_dtyped_srt SRT_CAST_EXPR DTYPE_INT [(new_identifier_srt SRT_IDENT_EXPR DTYPE_CHAR [120])]); (new_iliteral_srt DTYPE_INT (new_signed IInt 2))])])]). Proof. vm_compute. reflexivity. Qed.
(** tests/resolver/test_expression.c test_resolve_rshift_assignment_expr *)
Definition test_resolve_rshift_assignment_expr := expr_test (new_ast AST_RSHIFT_ASSIGN_EXPR [(new_identifier_ast AST_IDENT_EXPR [121]); (new_iliteral_ast AST_INT_EXPR (new_signed IInt 1))]) (Some [(fun t => sym_define_memory t [121] DTYPE_INT)]) None.
Example test_resolve_rshift_assignment_expr_ok : got test_resolve_rshift_assignment_expr = Some (new_dtyped_srt SRT_ASSIGN_EXPR DTYPE_INT [(new_dtyped_srt SRT_ADDR_EXPR (DTYPE_POINTER DTYPE_INT) [(new_identifier_srt SRT_IDENT_EXPR DTYPE_INT [121])]); (new_dtyped_srt SRT_RSHIFT_EXPR DTYPE_INT [(new_identifier_srt SRT_IDENT_EXPR DTYPE_INT [121]); (new_iliteral_srt DTYPE_INT (new_signed IInt 1))])]). Proof. vm_compute. reflexivity. Qed.
(** tests/resolver/test_expression.c test_resolve_bitwise_inclusive_or_assignment_expr *)
Definition test_resolve_bitwise_inclusive_or_assignment_expr := expr_test (new_ast AST_OR_ASSIGN_EXPR [(new_identifier_ast AST_IDENT_EXPR [120]); (new_identifier_ast AST_IDENT_EXPR [121])]) (Some [(fun t => sym_define_memory t [120] DTYPE_CHAR); (fun t => sym_define_memory t [121] DTYPE_INT)]) None.
Example test_resolve_bitwise_inclusive_or_assignment_expr_ok : got test_resolve_bitwise_inclusive_or_assignment_expr = Some (new_dtyped_srt SRT_ASSIGN_EXPR DTYPE_CHAR [(new_dtyped_srt SRT_ADDR_EXPR (DTYPE_POINTER DTYPE_CHAR) [(new_identifier_srt SRT_IDENT_EXPR DTYPE_CHAR [120])]); (new_dtyped_srt SRT_CAST_EXPR DTYPE_CHAR [(new_dtyped_srt SRT_OR_EXPR DTYPE_INT [(new_dtyped_srt SRT_CAST_EXPR DTYPE_INT [(new_identifier_srt SRT_IDENT_EXPR DTYPE_CHAR [120])]); (new_identifier_srt SRT_IDENT_EXPR DTYPE_INT [121])])])]). Proof. vm_compute. reflexivity. Qed.
(** tests/resolver/test_expression.c test_resolve_bitwise_exclusive_or_assignment_expr *)
Definition test_resolve_bitwise_exclusive_or_assignment_expr := expr_test (new_ast AST_XOR_ASSIGN_EXPR [(new_identifier_ast AST_IDENT_EXPR [120]); (new_iliteral_ast AST_INT_EXPR (new_unsigned IUInt 65535))]) (Some [(fun t => sym_define_memory t [120] DTYPE_INT)]) None.
Example test_resolve_bitwise_exclusive_or_assignment_expr_ok : got test_resolve_bitwise_exclusive_or_assignment_expr = Some (new_dtyped_srt SRT_ASSIGN_EXPR DTYPE_INT [(new_dtyped_srt SRT_ADDR_EXPR (DTYPE_POINTER DTYPE_INT) [(new_identifier_srt SRT_IDENT_EXPR DTYPE_INT [120])]); (new_dtyped_srt SRT_CAST_EXPR DTYPE_INT [(new_dtyped_srt SRT_XOR_EXPR DTYPE_UNSIGNED_INT [(new_dtyped_srt SRT_CAST_EXPR DTYPE_UNSIGNED_INT [(new_identifier_srt SRT_IDENT_EXPR DTYPE_INT [120])]); (new_iliteral_srt DTYPE_UNSIGNED_INT (new_unsigned IUInt 65535))])])]). Proof. vm_compute. reflexivity. Qed.
(** tests/resolver/test_expression.c test_resolve_bitwise_and_assignment_expr *)
Definition test_resolve_bitwise_and_assignment_expr := expr_test (new_ast AST_AND_ASSIGN_EXPR [(new_identifier_ast AST_IDENT_EXPR [120]); (new_identifier_ast AST_IDENT_EXPR [121])]) (Some [(fun t => sym_define_memory t [120] DTYPE_CHAR); (fun t => sym_define_memory t [121] DTYPE_INT)]) None.
Example test_resolve_bitwise_and_assignment_expr_ok : got test_resolve_bitwise_and_assignment_expr = Some (new_dtyped_srt SRT_ASSIGN_EXPR DTYPE_CHAR [(new_dtyped_srt SRT_ADDR_EXPR (DTYPE_POINTER DTYPE_CHAR) [(new_identifier_srt SRT_IDENT_EXPR DTYPE_CHAR [120])]); (new_dtyped_srt SRT_CAST_EXPR DTYPE_CHAR [(new_dtyped_srt SRT_AND_EXPR DTYPE_INT [(new_dtyped_srt SRT_CAST_EXPR DTYPE_INT [(new_identifier_srt SRT_IDENT_EXPR DTYPE_CHAR [120])]); (new_identifier_srt SRT_IDENT_EXPR DTYPE_INT [121])])])]). Proof. vm_compute. reflexivity. Qed.
(** tests/resolver/test_expression.c test_resolve_logical_or_expr *)
Definition test_resolve_logical_or_expr := expr_test (new_ast AST_LOR_EXPR [(new_ast AST_LOR_EXPR [(new_ast AST_LOR_EXPR [(new_ast AST_EQUAL_EXPR [(new_identifier_ast AST_IDENT_EXPR [105]); (new_iliteral_ast AST_INT_EXPR (new_signed IInt 0))]); (new_ast AST_EQUAL_EXPR [(new_identifier_ast AST_IDENT_EXPR [105]); (new_identifier_ast AST_IDENT_EXPR [109])])]); (new_ast AST_EQUAL_EXPR [(new_identifier_ast AST_IDENT_EXPR [106]); (new_iliteral_ast AST_INT_EXPR (new_signed IInt 0))])]); (new_ast AST_EQUAL_EXPR [(new_identifier_ast AST_IDENT_EXPR [106]); (new_identifier_ast AST_IDENT_EXPR [110])])]) (Some [(fun t => sym_define_memory t [105] DTYPE_INT); (fun t => sym_define_memory t [106] DTYPE_INT); (fun t => sym_define_memory t [109] DTYPE_CHAR); (fun t => sym_define_memory t [110] DTYPE_CHAR)]) None.
Example test_resolve_logical_or_expr_ok : got test_resolve_logical_or_expr = Some (new_dtyped_srt SRT_LOR_EXPR DTYPE_INT [(new_dtyped_srt SRT_LOR_EXPR DTYPE_INT [(new_dtyped_srt SRT_LOR_EXPR DTYPE_INT [(new_dtyped_srt SRT_EQUAL_EXPR DTYPE_INT [(new_identifier_srt SRT_IDENT_EXPR DTYPE_INT [105]); (new_iliteral_srt DTYPE_INT (new_signed IInt 0))]); (new_dtyped_srt SRT_EQUAL_EXPR DTYPE_INT [(new_identifier_srt SRT_IDENT_EXPR DTYPE_INT [105]); (new_dtyped_srt SRT_CAST_EXPR DTYPE_INT [(new_identifier_srt SRT_IDENT_EXPR DTYPE_CHAR [109])])])]); (new_dtyped_srt SRT_EQUAL_EXPR DTYPE_INT [(new_identifier_srt SRT_IDENT_EXPR DTYPE_INT [106]); (new_iliteral_srt DTYPE_INT (new_signed IInt 0))])]); (new_dtyped_srt SRT_EQUAL_EXPR DTYPE_INT [(new_identifier_srt SRT_IDENT_EXPR DTYPE_INT [106]); (new_dtyped_srt SRT_CAST_EXPR DTYPE_INT [(new_identifier_srt SRT_IDENT_EXPR DTYPE_CHAR [110])])])]). Proof. vm_compute. reflexivity. Qed.
(** tests/resolver/test_expression.c test_resolve_conditional_expr_arithmetic *)
Definition test_resolve_conditional_expr_arithmetic := expr_test (new_ast AST_COND_EXPR [(new_ast AST_GREATER_EXPR [(new_identifier_ast AST_IDENT_EXPR [120]); (new_iliteral_ast AST_INT_EXPR (new_signed IInt 0))]); (new_identifier_ast AST_IDENT_EXPR [117; 108]); (new_ast AST_COND_EXPR [(new_ast AST_LESS_EXPR [(new_identifier_ast AST_IDENT_EXPR [120]); (new_iliteral_ast AST_INT_EXPR (new_signed IInt 0))]); (new_identifier_ast AST_IDENT_EXPR [99]); (new_iliteral_ast AST_INT_EXPR (new_signed IInt 0))])]) (Some [(fun t => sym_define_memory t [120] DTYPE_INT); (fun t => sym_define_memory t [99] DTYPE_CHAR); (fun t => sym_define_memory t [117; 108] DTYPE_UNSIGNED_LONG)]) None.
Example test_resolve_conditional_expr_arithmetic_ok : got test_resolve_conditional_expr_arithmetic = Some (new_dtyped_srt SRT_COND_EXPR DTYPE_UNSIGNED_LONG [(new_dtyped_srt SRT_GREATER_EXPR DTYPE_INT [(new_identifier_srt SRT_IDENT_EXPR DTYPE_INT [120]); (new_iliteral_srt DTYPE_INT (new_signed IInt 0))]); (new_identifier_srt SRT_IDENT_EXPR DTYPE_UNSIGNED_LONG [117; 108]); (new_dtyped_srt SRT_CAST_EXPR DTYPE_UNSIGNED_LONG [(new_dtyped_srt SRT_COND_EXPR DTYPE_INT [(new_dtyped_srt SRT_LESS_EXPR DTYPE_INT [(new_identifier_srt SRT_IDENT_EXPR DTYPE_INT [120]); (new_iliteral_srt DTYPE_INT (new_signed IInt 0))]); (new_dtyped_srt SRT_CAST_EXPR DTYPE_INT [(new_identifier_srt SRT_IDENT_EXPR DTYPE_CHAR [99])]); (new_iliteral_srt DTYPE_INT (new_signed IInt 0))])])]). Proof. vm_compute. reflexivity. Qed.
(** tests/resolver/test_expression.c test_resolve_conditional_expr_pointer *)
Definition test_resolve_conditional_expr_pointer := expr_test (new_ast AST_COND_EXPR [(new_identifier_ast AST_IDENT_EXPR [112]); (new_identifier_ast AST_IDENT_EXPR [112]); (new_identifier_ast AST_IDENT_EXPR [113])]) (Some [(fun t => sym_define_memory t [112] (DTYPE_POINTER DTYPE_INT)); (fun t => sym_define_memory t [113] (DTYPE_POINTER DTYPE_INT))]) None.
Example test_resolve_conditional_expr_pointer_ok : got test_resolve_conditional_expr_pointer = Some (new_dtyped_srt SRT_COND_EXPR (DTYPE_POINTER DTYPE_INT) [(new_identifier_srt SRT_IDENT_EXPR (DTYPE_POINTER DTYPE_INT) [112]); (new_identifier_srt SRT_IDENT_EXPR (DTYPE_POINTER DTYPE_INT) [112]); (new_identifier_srt SRT_IDENT_EXPR (DTYPE_POINTER DTYPE_INT) [113])]). Proof. vm_compute. reflexivity. Qed.
(** tests/resolver/test_expression.c test_resolve_conditional_expr_struct *)
Definition test_resolve_conditional_expr_struct := expr_test (new_ast AST_MEMBER_EXPR [(new_ast AST_COND_EXPR [(new_identifier_ast AST_IDENT_EXPR [115; 104; 111; 117; 108; 100; 95; 117; 115; 101; 95; 115]); (new_identifier_ast AST_IDENT_EXPR [115]); (new_identifier_ast AST_IDENT_EXPR [116])]); (new_identifier_ast AST_IDENT_EXPR [97])]) (Some [(fun t => sym_define_memory t [115; 104; 111; 117; 108; 100; 95; 117; 115; 101; 95; 115] DTYPE_INT); (fun t => sym_define_memory t [115] (DTYPE_NSTRUCT [88] 12 12)); (fun t => sym_define_memory t [116] (DTYPE_NSTRUCT [88] 12 12))]) (Some [(fun t => tag_define_struct t [88] [([97], DTYPE_INT); ([98], DTYPE_INT); ([99], DTYPE_INT)])]).
Example test_resolve_conditional_expr_struct_ok : got test_resolve_conditional_expr_struct = Some (new_dtyped_srt SRT_TOMEMBER_EXPR DTYPE_INT [(new_dtyped_srt SRT_ADDR_EXPR (DTYPE_POINTER (DTYPE_NSTRUCT [88] 12 12)) [(new_dtyped_srt SRT_COND_EXPR (DTYPE_NSTRUCT [88] 12 12) [(new_identifier_srt SRT_IDENT_EXPR DTYPE_INT [115; 104; 111; 117; 108; 100; 95; 117; 115; 101; 95; 115]); (new_identifier_srt SRT_IDENT_EXPR (DTYPE_NSTRUCT [88] 12 12) [115]); (new_identifier_srt SRT_IDENT_EXPR (DTYPE_NSTRUCT [88] 12 12) [116])])]); (new_identifier_srt SRT_IDENT_EXPR DTYPE_INT [97])]). Proof. vm_compute. reflexivity. Qed.
(** tests/resolver/test_expression.c test_resolve_logical_and_expr *)
Definition test_resolve_logical_and_expr := expr_test (new_ast AST_LAND_EXPR [(new_ast AST_OR_EXPR [(new_identifier_ast AST_IDENT_EXPR [99; 104; 101; 99; 107; 49]); (new_identifier_ast AST_IDENT_EXPR [99; 104; 101; 99; 107; 50])]); (new_ast AST_CALL_EXPR [(new_identifier_ast AST_IDENT_EXPR [118; 97; 108; 105; 100; 97; 116; 101]); (new_ast AST_ARG_LIST [(new_identifier_ast AST_IDENT_EXPR [111; 98; 106; 101; 99; 116])])])]) (Some [(fun t => sym_define_memory t [99; 104; 101; 99; 107; 49] DTYPE_INT); (fun t => sym_define_memory t [99; 104; 101; 99; 107; 50] DTYPE_CHAR); (fun t => sym_define_memory t [111; 98; 106; 101; 99; 116] (DTYPE_ARRAY DTYPE_CHAR 6)); (fun t => sym_define_label t [118; 97; 108; 105; 100; 97; 116; 101] (DTYPE_FUNCTION [(Some [116; 97; 114; 103; 101; 116], (DTYPE_POINTER DTYPE_CHAR))] DTYPE_INT))]) None.
Example test_resolve_logical_and_expr_ok : got test_resolve_logical_and_expr = Some (new_dtyped_srt SRT_LAND_EXPR DTYPE_INT [(new_dtyped_srt SRT_OR_EXPR DTYPE_INT [(new_identifier_srt SRT_IDENT_EXPR DTYPE_INT [99; 104; 101; 99; 107; 49]); (new_dtyped_srt SRT_CAST_EXPR DTYPE_INT [(new_identifier_srt SRT_IDENT_EXPR DTYPE_CHAR [99; 104; 101; 99; 107; 50])])]); (new_dtyped_srt SRT_CALL_EXPR DTYPE_INT [(new_dtyped_srt SRT_ADDR_EXPR (DTYPE_POINTER (DTYPE_FUNCTION [(Some [116; 97; 114; 103; 101; 116], (DTYPE_POINTER DTYPE_CHAR))] DTYPE_INT)) [(new_identifier_srt SRT_IDENT_EXPR (DTYPE_FUNCTION [(Some [116; 97; 114; 103; 101; 116], (DTYPE_POINTER DTYPE_CHAR))] DTYPE_INT) [118; 97; 108; 105; 100; 97; 116; 101])]); (new_srt SRT_ARG_LIST [(new_dtyped_srt SRT_ADDR_EXPR (DTYPE_POINTER DTYPE_CHAR) [(new_identifier_srt SRT_IDENT_EXPR (DTYPE_ARRAY DTYPE_CHAR 6) [111; 98; 106; 101; 99; 116])])])])]). Proof. vm_compute. reflexivity. Qed.
(** tests/resolver/test_expression.c test_resolve_bitwise_inclusive_or_expr *)
Definition test_resolve_bitwise_inclusive_or_expr := expr_test (new_ast AST_OR_EXPR [(new_identifier_ast AST_IDENT_EXPR [120]); (new_ast AST_XOR_EXPR [(new_identifier_ast AST_IDENT_EXPR [121]); (new_identifier_ast AST_IDENT_EXPR [122])])]) (Some [(fun t => sym_define_memory t [120] DTYPE_CHAR); (fun t => sym_define_memory t [121] DTYPE_INT); (fun t => sym_define_memory t [122] DTYPE_INT)]) None.
Example test_resolve_bitwise_inclusive_or_expr_ok : got test_resolve_bitwise_inclusive_or_expr = Some (new_dtyped_srt SRT_OR_EXPR DTYPE_INT [(new_dtyped_srt SRT_CAST_EXPR DTYPE_INT [(new_identifier_srt SRT_IDENT_EXPR DTYPE_CHAR [120])]); (new_dtyped_srt SRT_XOR_EXPR DTYPE_INT [(new_identifier_srt SRT_IDENT_EXPR DTYPE_INT [121]); (new_identifier_srt SRT_IDENT_EXPR DTYPE_INT [122])])]). Proof. vm_compute. reflexivity. Qed.
(** tests/resolver/test_expression.c test_resolve_bitwise_exclusive_or_expr *)
Definition test_resolve_bitwise_exclusive_or_expr := expr_test (new_ast AST_XOR_EXPR [(new_identifier_ast AST_IDENT_EXPR [120]); (new_ast AST_AND_EXPR [(new_identifier_ast AST_IDENT_EXPR [121]); (new_identifier_ast AST_IDENT_EXPR [122])])]) (Some [(fun t => sym_define_memory t [120] DTYPE_CHAR); (fun t => sym_define_memory t [121] DTYPE_INT); (fun t => sym_define_memory t [122] DTYPE_INT)]) None.
Example test_resolve_bitwise_exclusive_or_expr_ok : got test_resolve_bitwise_exclusive_or_expr = Some (new_dtyped_srt SRT_XOR_EXPR DTYPE_INT [(new_dtyped_srt SRT_CAST_EXPR DTYPE_INT [(new_identifier_srt SRT_IDENT_EXPR DTYPE_CHAR [120])]); (new_dtyped_srt SRT_AND_EXPR DTYPE_INT [(new_identifier_srt SRT_IDENT_EXPR DTYPE_INT [121]); (new_identifier_srt SRT_IDENT_EXPR DTYPE_INT [122])])]). Proof. vm_compute. reflexivity. Qed.
(** tests/resolver/test_expression.c test_resolve_bitwise_and_expr *)
Definition test_resolve_bitwise_and_expr := expr_test (new_ast AST_AND_EXPR [(new_ast AST_EQUAL_EXPR [(new_identifier_ast AST_IDENT_EXPR [120]); (new_iliteral_ast AST_INT_EXPR (new_signed IInt 1))]); (new_identifier_ast AST_IDENT_EXPR [121])]) (Some [(fun t => sym_define_memory t [120] DTYPE_INT); (fun t => sym_define_memory t [121] DTYPE_CHAR)]) None.
Example test_resolve_bitwise_and_expr_ok : got test_resolve_bitwise_and_expr = Some (new_dtyped_srt SRT_AND_EXPR DTYPE_INT [(new_dtyped_srt SRT_EQUAL_EXPR DTYPE_INT [(new_identifier_srt SRT_IDENT_EXPR DTYPE_INT [120]); (new_iliteral_srt DTYPE_INT (new_signed IInt 1))]); (new_dtyped_srt SRT_CAST_EXPR DTYPE_INT [(new_identifier_srt SRT_IDENT_EXPR DTYPE_CHAR [121])])]). Proof. vm_compute. reflexivity. Qed.
(** tests/resolver/test_expression.c test_resolve_equal_expr *)
Definition test_resolve_equal_expr := expr_test (new_ast AST_EQUAL_EXPR [(new_identifier_ast AST_IDENT_EXPR [120]); (new_identifier_ast AST_IDENT_EXPR [121])]) (Some [(fun t => sym_define_memory t [120] DTYPE_CHAR); (fun t => sym_define_memory t [121] DTYPE_CHAR)]) None.
Example test_resolve_equal_expr_ok : got test_resolve_equal_expr = Some (new_dtyped_srt SRT_EQUAL_EXPR DTYPE_INT [(new_dtyped_srt SRT_CAST_EXPR DTYPE_INT [(new_identifier_srt SRT_IDENT_EXPR DTYPE_CHAR [120])]); (new_dtyped_srt SRT_CAST_EXPR DTYPE_INT [(new_identifier_srt SRT_IDENT_EXPR DTYPE_CHAR [121])])]). Proof. vm_compute. reflexivity. Qed.
(** tests/resolver/test_expression.c test_resolve_not_equal_expr *)
Definition test_resolve_not_equal_expr := expr_test (new_ast AST_NEQUAL_EXPR [(new_ast AST_EQUAL_EXPR [(new_identifier_ast AST_IDENT_EXPR [122; 101; 114; 111; 95; 102; 108; 97; 103]); (new_iliteral_ast AST_INT_EXPR (new_signed IInt 0))]); (new_iliteral_ast AST_INT_EXPR (new_signed IInt 0))]) (Some [(fun t => sym_define_memory t [122; 101; 114; 111; 95; 102; 108; 97; 103] DTYPE_INT)]) None.
Example test_resolve_not_equal_expr_ok : got test_resolve_not_equal_expr = Some (new_dtyped_srt SRT_NEQUAL_EXPR DTYPE_INT [(new_dtyped_srt SRT_EQUAL_EXPR DTYPE_INT [(new_identifier_srt SRT_IDENT_EXPR DTYPE_INT [122; 101; 114; 111; 95; 102; 108; 97; 103]); (new_iliteral_srt DTYPE_INT (new_signed IInt 0))]); (new_iliteral_srt DTYPE_INT (new_signed IInt 0))]). Proof. vm_compute. reflexivity. Qed.
(** tests/resolver/test_expression.c test_resolve_less_expr *)
Definition test_resolve_less_expr := expr_test (new_ast AST_LESS_EXPR [(new_identifier_ast AST_IDENT_EXPR [105]); (new_identifier_ast AST_IDENT_EXPR [109])]) (Some [(fun t => sym_define_memory t [105] DTYPE_INT); (fun t => sym_define_memory t [109] DTYPE_CHAR)]) None.
Example test_resolve_less_expr_ok : got test_resolve_less_expr = Some (new_dtyped_srt SRT_LESS_EXPR DTYPE_INT [(new_identifier_srt SRT_IDENT_EXPR DTYPE_INT [105]); (new_dtyped_srt SRT_CAST_EXPR DTYPE_INT [(new_identifier_srt SRT_IDENT_EXPR DTYPE_CHAR [109])])]). Proof. vm_compute. reflexivity. Qed.
(** tests/resolver/test_expression.c test_resolve_greater_expr *)
Definition test_resolve_greater_expr := expr_test (new_ast AST_GREATER_EXPR [(new_identifier_ast AST_IDENT_EXPR [106]); (new_iliteral_ast AST_INT_EXPR (new_signed IInt 0))]) (Some [(fun t => sym_define_memory t [106] DTYPE_INT)]) None.
Example test_resolve_greater_expr_ok : got test_resolve_greater_expr = Some (new_dtyped_srt SRT_GREATER_EXPR DTYPE_INT [(new_identifier_srt SRT_IDENT_EXPR DTYPE_INT [106]); (new_iliteral_srt DTYPE_INT (new_signed IInt 0))]). Proof. vm_compute. reflexivity. Qed.
(** tests/resolver/test_expression.c test_resolve_less_equal_expr *)
Definition test_resolve_less_equal_expr := expr_test (new_ast AST_LESSEQ_EXPR [(new_ast AST_LESS_EXPR [(new_identifier_ast AST_IDENT_EXPR [105]); (new_identifier_ast AST_IDENT_EXPR [109])]); (new_ast AST_EQUAL_EXPR [(new_identifier_ast AST_IDENT_EXPR [106]); (new_iliteral_ast AST_INT_EXPR (new_signed IInt 0))])]) (Some [(fun t => sym_define_memory t [105] DTYPE_INT); (fun t => sym_define_memory t [106] DTYPE_INT); (fun t => sym_define_memory t [109] DTYPE_CHAR)]) None.
Example test_resolve_less_equal_expr_ok : got test_resolve_less_equal_expr = Some (new_dtyped_srt SRT_LESSEQ_EXPR DTYPE_INT [(new_dtyped_srt SRT_LESS_EXPR DTYPE_INT [(new_identifier_srt SRT_IDENT_EXPR DTYPE_INT [105]); (new_dtyped_srt SRT_CAST_EXPR DTYPE_INT [(new_identifier_srt SRT_IDENT_EXPR DTYPE_CHAR [109])])]); (new_dtyped_srt SRT_EQUAL_EXPR DTYPE_INT [(new_identifier_srt SRT_IDENT_EXPR DTYPE_INT [106]); (new_iliteral_srt DTYPE_INT (new_signed IInt 0))])]). Proof. vm_compute. reflexivity. Qed.
(** tests/resolver/test_expression.c test_resolve_greater_equal_expr *)
Definition test_resolve_greater_equal_expr := expr_test (new_ast AST_GREATEREQ_EXPR [(new_ast AST_GREATER_EXPR [(new_identifier_ast AST_IDENT_EXPR [106]); (new_identifier_ast AST_IDENT_EXPR [110])]); (new_ast AST_EQUAL_EXPR [(new_identifier_ast AST_IDENT_EXPR [105]); (new_iliteral_ast AST_INT_EXPR (new_signed IInt 0))])]) (Some [(fun t => sym_define_memory t [105] DTYPE_INT); (fun t => sym_define_memory t [106] DTYPE_INT); (fun t => sym_define_memory t [110] DTYPE_CHAR)]) None.
Example test_resolve_greater_equal_expr_ok : got test_resolve_greater_equal_expr = Some (new_dtyped_srt SRT_GREATEREQ_EXPR DTYPE_INT [(new_dtyped_srt SRT_GREATER_EXPR DTYPE_INT [(new_identifier_srt SRT_IDENT_EXPR DTYPE_INT [106]); (new_dtyped_srt SRT_CAST_EXPR DTYPE_INT [(new_identifier_srt SRT_IDENT_EXPR DTYPE_CHAR [110])])]); (new_dtyped_srt SRT_EQUAL_EXPR DTYPE_INT [(new_identifier_srt SRT_IDENT_EXPR DTYPE_INT [105]); (new_iliteral_srt DTYPE_INT (new_signed IInt 0))])]). Proof. vm_compute. reflexivity. Qed.
(** tests/resolver/test_expression.c test_resolve_lshift_expr *)
Definition test_resolve_lshift_expr := expr_test (new_ast AST_LSHIFT_EXPR [(new_identifier_ast AST_IDENT_EXPR [110]); (new_iliteral_ast AST_INT_EXPR (new_signed IInt 2))]) (Some [(fun t => sym_define_memory t [110] DTYPE_UNSIGNED_INT)]) None.
Example test_resolve_lshift_expr_ok : got test_resolve_lshift_expr = Some (new_dtyped_srt SRT_LSHIFT_EXPR DTYPE_UNSIGNED_INT [(new_identifier_srt SRT_IDENT_EXPR DTYPE_UNSIGNED_INT [110]); (new_dtyped_srt SRT_CAST_EXPR DTYPE_UNSIGNED_INT [(new_iliteral_srt DTYPE_INT (new_signed IInt 2))])]). Proof. vm_compute. reflexivity. Qed.
(** tests/resolver/test_expression.c test_resolve_rshift_expr *)
Definition test_resolve_rshift_expr := expr_test (new_ast AST_RSHIFT_EXPR [(new_identifier_ast AST_IDENT_EXPR [109]); (new_iliteral_ast AST_INT_EXPR (new_signed ILong 2))]) (Some [(fun t => sym_define_memory t [109] DTYPE_LONG)]) None.
Example test_resolve_rshift_expr_ok : got test_resolve_rshift_expr = Some (new_dtyped_srt SRT_RSHIFT_EXPR DTYPE_LONG [(new_identifier_srt SRT_IDENT_EXPR DTYPE_LONG [109]); (new_iliteral_srt DTYPE_LONG (new_signed ILong 2))]). Proof. vm_compute. reflexivity. Qed.
(** tests/resolver/test_expression.c test_resolve_add_expr *)
Definition test_resolve_add_expr := expr_test (new_ast AST_ADD_EXPR [(new_identifier_ast AST_IDENT_EXPR [110]); (new_iliteral_ast AST_INT_EXPR (new_signed IInt 3))]) (Some [(fun t => sym_define_memory t [110] DTYPE_CHAR)]) None.
Example test_resolve_add_expr_ok : got test_resolve_add_expr = Some (new_dtyped_srt SRT_ADD_EXPR DTYPE_INT [(new_dtyped_srt SRT_CAST_EXPR DTYPE_INT [(new_identifier_srt SRT_IDENT_EXPR DTYPE_CHAR [110])]); (new_iliteral_srt DTYPE_INT (new_signed IInt 3))]). Proof. vm_compute. reflexivity. Qed.
(** tests/resolver/test_expression.c test_resolve_subtract_expr *)
Definition test_resolve_subtract_expr := expr_test (new_ast AST_SUB_EXPR [(new_ast AST_ADD_EXPR [(new_iliteral_ast AST_INT_EXPR (new_signed IInt 3)); (new_iliteral_ast AST_INT_EXPR (new_signed IInt 4))]); (new_iliteral_ast AST_INT_EXPR (new_signed IInt 6))]) None None.
Example test_resolve_subtract_expr_ok : got test_resolve_subtract_expr = Some (new_dtyped_srt SRT_SUB_EXPR DTYPE_INT [(new_dtyped_srt SRT_ADD_EXPR DTYPE_INT [(new_iliteral_srt DTYPE_INT (new_signed IInt 3)); (new_iliteral_srt DTYPE_INT (new_signed IInt 4))]); (new_iliteral_srt DTYPE_INT (new_signed IInt 6))]). Proof. vm_compute. reflexivity. Qed.
(** tests/resolver/test_expression.c test_resolve_pointer_add_expr *)
Definition test_resolve_pointer_add_expr := expr_test (new_ast AST_ADD_EXPR [(new_identifier_ast AST_IDENT_EXPR [112; 116; 114]); (new_iliteral_ast AST_INT_EXPR (new_signed IInt 2))]) (Some [(fun t => sym_define_memory t [112; 116; 114] (DTYPE_POINTER DTYPE_INT))]) None.
Example test_resolve_pointer_add_expr_ok : got test_resolve_pointer_add_expr = Some (new_dtyped_srt SRT_PADD_EXPR (DTYPE_POINTER DTYPE_INT) [(new_identifier_srt SRT_IDENT_EXPR (DTYPE_POINTER DTYPE_INT) [112; 116; 114]); (new_iliteral_srt DTYPE_INT (new_signed IInt 2))]). Proof. vm_compute. reflexivity. Qed.
(** tests/resolver/test_expression.c test_resolve_pointer_add_expr_reversed *)
Definition test_resolve_pointer_add_expr_reversed := expr_test (new_ast AST_ADD_EXPR [(new_iliteral_ast AST_INT_EXPR (new_signed IInt 2)); (new_identifier_ast AST_IDENT_EXPR [112; 116; 114])]) (Some [(fun t => sym_define_memory t [112; 116; 114] (DTYPE_POINTER DTYPE_CHAR))]) None.
Example test_resolve_pointer_add_expr_reversed_ok : got test_resolve_pointer_add_expr_reversed = Some (new_dtyped_srt SRT_PADD_EXPR (DTYPE_POINTER DTYPE_CHAR) [(new_identifier_srt SRT_IDENT_EXPR (DTYPE_POINTER DTYPE_CHAR) [112; 116; 114]); (new_iliteral_srt DTYPE_INT (new_signed IInt 2))]). Proof. vm_compute. reflexivity. Qed.
(** tests/resolver/test_expression.c test_resolve_pointer_subtract_expr *)
Definition test_resolve_pointer_subtract_expr := expr_test (new_ast AST_SUB_EXPR [(new_identifier_ast AST_IDENT_EXPR [112; 116; 114]); (new_iliteral_ast AST_INT_EXPR (new_signed IInt 4))]) (Some [(fun t => sym_define_memory t [112; 116; 114] (DTYPE_POINTER DTYPE_INT))]) None.
Example test_resolve_pointer_subtract_expr_ok : got test_resolve_pointer_subtract_expr = Some (new_dtyped_srt SRT_PSUB_EXPR (DTYPE_POINTER DTYPE_INT) [(new_identifier_srt SRT_IDENT_EXPR (DTYPE_POINTER DTYPE_INT) [112; 116; 114]); (new_iliteral_srt DTYPE_INT (new_signed IInt 4))]). Proof. vm_compute. reflexivity. Qed.
(** tests/resolver/test_expression.c test_resolve_pointer_difference_expr *)
Definition test_resolve_pointer_difference_expr := expr_test (new_ast AST_SUB_EXPR [(new_identifier_ast AST_IDENT_EXPR [112]); (new_identifier_ast AST_IDENT_EXPR [113])]) (Some [(fun t => sym_define_memory t [112] (DTYPE_POINTER DTYPE_CHAR)); (fun t => sym_define_memory t [113] (DTYPE_POINTER DTYPE_CHAR))]) None.
Example test_resolve_pointer_difference_expr_ok : got test_resolve_pointer_difference_expr = Some (new_dtyped_srt SRT_PDIFF_EXPR DTYPE_UNSIGNED_LONGLONG [(new_identifier_srt SRT_IDENT_EXPR (DTYPE_POINTER DTYPE_CHAR) [112]); (new_identifier_srt SRT_IDENT_EXPR (DTYPE_POINTER DTYPE_CHAR) [113])]). Proof. vm_compute. reflexivity. Qed.
(** tests/resolver/test_expression.c test_resolve_multiply_expr *)
Definition test_resolve_multiply_expr := expr_test (new_ast AST_MUL_EXPR [(new_iliteral_ast AST_INT_EXPR (new_signed IInt 4)); (new_identifier_ast AST_IDENT_EXPR [110])]) (Some [(fun t => sym_define_memory t [110] DTYPE_INT)]) None.
Example test_resolve_multiply_expr_ok : got test_resolve_multiply_expr = Some (new_dtyped_srt SRT_MUL_EXPR DTYPE_INT [(new_iliteral_srt DTYPE_INT (new_signed IInt 4)); (new_identifier_srt SRT_IDENT_EXPR DTYPE_INT [110])]). Proof. vm_compute. reflexivity. Qed.
(** tests/resolver/test_expression.c test_resolve_division_expr *)
Definition test_resolve_division_expr := expr_test (new_ast AST_DIV_EXPR [(new_identifier_ast AST_IDENT_EXPR [97; 109; 111; 117; 110; 116]); (new_iliteral_ast AST_INT_EXPR (new_signed IInt 2))]) (Some [(fun t => sym_define_memory t [97; 109; 111; 117; 110; 116] DTYPE_CHAR)]) None.
Example test_resolve_division_expr_ok : got test_resolve_division_expr = Some (new_dtyped_srt SRT_DIV_EXPR DTYPE_INT [(new_dtyped_srt SRT_CAST_EXPR DTYPE_INT [(new_identifier_srt SRT_IDENT_EXPR DTYPE_CHAR [97; 109; 111; 117; 110; 116])]); (new_iliteral_srt DTYPE_INT (new_signed IInt 2))]). Proof. vm_compute. reflexivity. Qed.
(** tests/resolver/test_expression.c test_resolve_modulo_expr *)
Definition test_resolve_modulo_expr := expr_test (new_ast AST_MOD_EXPR [(new_ast AST_MUL_EXPR [(new_identifier_ast AST_IDENT_EXPR [118; 97; 108; 117; 101]); (new_iliteral_ast AST_INT_EXPR (new_signed IInt 9))]); (new_iliteral_ast AST_INT_EXPR (new_signed IInt 5))]) (Some [(fun t => sym_define_memory t [118; 97; 108; 117; 101] DTYPE_CHAR)]) None.
Example test_resolve_modulo_expr_ok : got test_resolve_modulo_expr = Some (new_dtyped_srt SRT_MOD_EXPR DTYPE_INT [(new_dtyped_srt SRT_MUL_EXPR DTYPE_INT [(new_dtyped_srt SRT_CAST_EXPR DTYPE_INT [(new_identifier_srt SRT_IDENT_EXPR DTYPE_CHAR [118; 97; 108; 117; 101])]); (new_iliteral_srt DTYPE_INT (new_signed IInt 9))]); (new_iliteral_srt DTYPE_INT (new_signed IInt 5))]). Proof. vm_compute. reflexivity. Qed.
(** tests/resolver/test_expression.c test_resolve_cast_expr *)
Definition test_resolve_cast_expr := expr_test (new_ast AST_CAST_EXPR [(new_ast AST_TYPE_NAME [(new_ast AST_SPEC_QUAL_LIST [(new_ast AST_TYPE_VOID [])]); (new_ast AST_PTR_DECLOR [(new_ast AST_FUNC_DECLOR [(new_ast AST_ABS_DECLOR []); (new_ast AST_PARAM_LIST [(new_ast AST_PARAM_DECL [(new_ast AST_DECL_SPECS [(new_ast AST_TYPE_VOID [])]); (new_ast AST_ABS_DECLOR [])])])])])]); (new_ast AST_CAST_EXPR [(new_ast AST_TYPE_NAME [(new_ast AST_SPEC_QUAL_LIST [(new_ast AST_TYPE_INT [])]); (new_ast AST_ABS_DECLOR [])]); (new_identifier_ast AST_IDENT_EXPR [102])])]) (Some [(fun t => sym_define_memory t [102] DTYPE_CHAR)]) None.
Example test_resolve_cast_expr_ok : got test_resolve_cast_expr = Some (new_dtyped_srt SRT_CAST_EXPR (DTYPE_POINTER (DTYPE_FUNCTION [] DTYPE_VOID)) [(new_dtyped_srt SRT_CAST_EXPR DTYPE_INT [(new_identifier_srt SRT_IDENT_EXPR DTYPE_CHAR [102])])]). Proof. vm_compute. reflexivity. Qed.
(** tests/resolver/test_expression.c test_resolve_preinc_expr *)
Definition test_resolve_preinc_expr := expr_test (new_ast AST_PREINC_EXPR [(new_ast AST_SUBSC_EXPR [(new_identifier_ast AST_IDENT_EXPR [97]); (new_identifier_ast AST_IDENT_EXPR [105])])]) (Some [(fun t => sym_define_memory t [97] (DTYPE_ARRAY DTYPE_INT 5)); (fun t => sym_define_memory t [105] DTYPE_INT)]) None.
Example test_resolve_preinc_expr_ok : got test_resolve_preinc_expr = Some (new_dtyped_srt SRT_PREINC_EXPR DTYPE_INT [(new_dtyped_srt SRT_ADDR_EXPR (DTYPE_POINTER DTYPE_INT) [(new_dtyped_srt SRT_INDIR_EXPR DTYPE_INT [(new_dtyped_srt SRT_PADD_EXPR (DTYPE_POINTER DTYPE_INT) [(new_dtyped_srt SRT_ADDR_EXPR (DTYPE_POINTER DTYPE_INT) [(new_identifier_srt SRT_IDENT_EXPR (DTYPE_ARRAY DTYPE_INT 5) [97])]); (new_identifier_srt SRT_IDENT_EXPR DTYPE_INT [105])])])])]). Proof. vm_compute. reflexivity. Qed.
(** tests/resolver/test_expression.c test_resolve_predec_expr *)
Definition test_resolve_predec_expr := expr_test (new_ast AST_PREDEC_EXPR [(new_identifier_ast AST_IDENT_EXPR [106])]) (Some [(fun t => sym_define_memory t [106] DTYPE_INT)]) None.
Example test_resolve_predec_expr_ok : got test_resolve_predec_expr = Some (new_dtyped_srt SRT_PREDEC_EXPR DTYPE_INT [(new_dtyped_srt SRT_ADDR_EXPR (DTYPE_POINTER DTYPE_INT) [(new_identifier_srt SRT_IDENT_EXPR DTYPE_INT [106])])]). Proof. vm_compute. reflexivity. Qed.
(** tests/resolver/test_expression.c test_resolve_pointer_preinc_expr *)
Definition test_resolve_pointer_preinc_expr := expr_test (new_ast AST_PREINC_EXPR [(new_identifier_ast AST_IDENT_EXPR [112])]) (Some [(fun t => sym_define_memory t [112] (DTYPE_POINTER DTYPE_INT))]) None.
Example test_resolve_pointer_preinc_expr_ok : got test_resolve_pointer_preinc_expr = Some (new_dtyped_srt SRT_PREINC_EXPR (DTYPE_POINTER DTYPE_INT) [(new_dtyped_srt SRT_ADDR_EXPR (DTYPE_POINTER (DTYPE_POINTER DTYPE_INT)) [(new_identifier_srt SRT_IDENT_EXPR (DTYPE_POINTER DTYPE_INT) [112])])]). Proof. vm_compute. reflexivity. Qed.
(** tests/resolver/test_expression.c test_resolve_pointer_predec_expr *)
Definition test_resolve_pointer_predec_expr := expr_test (new_ast AST_PREDEC_EXPR [(new_identifier_ast AST_IDENT_EXPR [113])]) (Some [(fun t => sym_define_memory t [113] (DTYPE_POINTER DTYPE_INT))]) None.
Example test_resolve_pointer_predec_expr_ok : got test_resolve_pointer_predec_expr = Some (new_dtyped_srt SRT_PREDEC_EXPR (DTYPE_POINTER DTYPE_INT) [(new_dtyped_srt SRT_ADDR_EXPR (DTYPE_POINTER (DTYPE_POINTER DTYPE_INT)) [(new_identifier_srt SRT_IDENT_EXPR (DTYPE_POINTER DTYPE_INT) [113])])]). Proof. vm_compute. reflexivity. Qed.
(** tests/resolver/test_expression.c test_resolve_address_expr *)
Definition test_resolve_address_expr := expr_test (new_ast AST_ADDR_EXPR [(new_ast AST_SUBSC_EXPR [(new_identifier_ast AST_IDENT_EXPR [97]); (new_iliteral_ast AST_INT_EXPR (new_signed IInt 1))])]) (Some [(fun t => sym_define_memory t [97] (DTYPE_ARRAY DTYPE_INT 5))]) None.
Example test_resolve_address_expr_ok : got test_resolve_address_expr = Some (new_dtyped_srt SRT_ADDR_EXPR (DTYPE_POINTER DTYPE_INT) [(new_dtyped_srt SRT_INDIR_EXPR DTYPE_INT [(new_dtyped_srt SRT_PADD_EXPR (DTYPE_POINTER DTYPE_INT) [(new_dtyped_srt SRT_ADDR_EXPR (DTYPE_POINTER DTYPE_INT) [(new_identifier_srt SRT_IDENT_EXPR (DTYPE_ARRAY DTYPE_INT 5) [97])]); (new_iliteral_srt DTYPE_INT (new_signed IInt 1))])])]). Proof. vm_compute. reflexivity. Qed.
(** tests/resolver/test_expression.c test_resolve_indirection_expr *)
Definition test_resolve_indirection_expr := expr_test (new_ast AST_INDIR_EXPR [(new_identifier_ast AST_IDENT_EXPR [112; 116; 114])]) (Some [(fun t => sym_define_memory t [112; 116; 114] (DTYPE_POINTER DTYPE_INT))]) None.
Example test_resolve_indirection_expr_ok : got test_resolve_indirection_expr = Some (new_dtyped_srt SRT_INDIR_EXPR DTYPE_INT [(new_identifier_srt SRT_IDENT_EXPR (DTYPE_POINTER DTYPE_INT) [112; 116; 114])]). Proof. vm_compute. reflexivity. Qed.
(** tests/resolver/test_expression.c test_resolve_positive_expr *)
Definition test_resolve_positive_expr := expr_test (new_ast AST_POS_EXPR [(new_identifier_ast AST_IDENT_EXPR [120])]) (Some [(fun t => sym_define_memory t [120] DTYPE_CHAR)]) None.
Example test_resolve_positive_expr_ok : got test_resolve_positive_expr = Some (new_dtyped_srt SRT_POS_EXPR DTYPE_INT [(new_dtyped_srt SRT_CAST_EXPR DTYPE_INT [(new_identifier_srt SRT_IDENT_EXPR DTYPE_CHAR [120])])]). Proof. vm_compute. reflexivity. Qed.
(** tests/resolver/test_expression.c test_resolve_negative_expr *)
Definition test_resolve_negative_expr := expr_test (new_ast AST_NEG_EXPR [(new_identifier_ast AST_IDENT_EXPR [120])]) (Some [(fun t => sym_define_memory t [120] DTYPE_CHAR)]) None.
Example test_resolve_negative_expr_ok : got test_resolve_negative_expr = Some (new_dtyped_srt SRT_NEG_EXPR DTYPE_INT [(new_dtyped_srt SRT_CAST_EXPR DTYPE_INT [(new_identifier_srt SRT_IDENT_EXPR DTYPE_CHAR [120])])]). Proof. vm_compute. reflexivity. Qed.
(** tests/resolver/test_expression.c test_resolve_bitwise_not_expr *)
Definition test_resolve_bitwise_not_expr := expr_test (new_ast AST_NOT_EXPR [(new_identifier_ast AST_IDENT_EXPR [120])]) (Some [(fun t => sym_define_memory t [120] DTYPE_CHAR)]) None.
Example test_resolve_bitwise_not_expr_ok : got test_resolve_bitwise_not_expr = Some (new_dtyped_srt SRT_NOT_EXPR DTYPE_INT [(new_dtyped_srt SRT_CAST_EXPR DTYPE_INT [(new_identifier_srt SRT_IDENT_EXPR DTYPE_CHAR [120])])]). Proof. vm_compute. reflexivity. Qed.
(** tests/resolver/test_expression.c test_resolve_logical_not_expr *)
Definition test_resolve_logical_not_expr := expr_test (new_ast AST_LNOT_EXPR [(new_ast AST_LNOT_EXPR [(new_identifier_ast AST_IDENT_EXPR [102; 108; 97; 103])])]) (Some [(fun t => sym_define_memory t [102; 108; 97; 103] DTYPE_CHAR)]) None.
Example test_resolve_logical_not_expr_ok : got test_resolve_logical_not_expr = Some (new_dtyped_srt SRT_LNOT_EXPR DTYPE_INT [(new_dtyped_srt SRT_LNOT_EXPR DTYPE_INT [(new_identifier_srt SRT_IDENT_EXPR DTYPE_CHAR [102; 108; 97; 103])])]). Proof. vm_compute. reflexivity. Qed.
(** tests/resolver/test_expression.c test_resolve_sizeof_expr_typename *)
Definition test_resolve_sizeof_expr_typename := expr_test (new_ast AST_SIZEOF_EXPR [(new_ast AST_TYPE_NAME [(new_ast AST_SPEC_QUAL_LIST [(new_ast AST_TYPE_INT [])]); (new_ast AST_PTR_DECLOR [(new_ast AST_ABS_DECLOR [])])])]) None None.
Example test_resolve_sizeof_expr_typename_ok : got test_resolve_sizeof_expr_typename = Some (new_iliteral_srt DTYPE_INT (new_signed IInt 8)). Proof. vm_compute. reflexivity. Qed.
(** tests/resolver/test_expression.c test_resolve_sizeof_expr_expr *)
Definition test_resolve_sizeof_expr_expr := expr_test (new_ast AST_SIZEOF_EXPR [(new_iliteral_ast AST_INT_EXPR (new_signed IInt 1))]) None None.
Example test_resolve_sizeof_expr_expr_ok : got test_resolve_sizeof_expr_expr = Some (new_iliteral_srt DTYPE_INT (new_signed IInt 4)). Proof. vm_compute. reflexivity. Qed.
(** tests/resolver/test_expression.c test_resolve_call_expr *)
Definition test_resolve_call_expr := expr_test (new_ast AST_CALL_EXPR [(new_identifier_ast AST_IDENT_EXPR [102; 117; 110; 99; 116; 105; 111; 110]); (new_ast AST_ARG_LIST [(new_identifier_ast AST_IDENT_EXPR [97]); (new_iliteral_ast AST_INT_EXPR (new_signed IInt 3))])]) (Some [(fun t => sym_define_label t [102; 117; 110; 99; 116; 105; 111; 110] (DTYPE_FUNCTION [(Some [120], DTYPE_INT); (Some [121], DTYPE_INT)] DTYPE_INT)); (fun t => sym_define_memory t [97] DTYPE_CHAR)]) None.
Example test_resolve_call_expr_ok : got test_resolve_call_expr = Some (new_dtyped_srt SRT_CALL_EXPR DTYPE_INT [(new_dtyped_srt SRT_ADDR_EXPR (DTYPE_POINTER (DTYPE_FUNCTION [(Some [120], DTYPE_INT); (Some [121], DTYPE_INT)] DTYPE_INT)) [(new_identifier_srt SRT_IDENT_EXPR (DTYPE_FUNCTION [(Some [120], DTYPE_INT); (Some [121], DTYPE_INT)] DTYPE_INT) [102; 117; 110; 99; 116; 105; 111; 110])]); (new_srt SRT_ARG_LIST [(new_dtyped_srt SRT_CAST_EXPR DTYPE_INT [(new_identifier_srt SRT_IDENT_EXPR DTYPE_CHAR [97])]); (new_iliteral_srt DTYPE_INT (new_signed IInt 3))])]). Proof. vm_compute. reflexivity. Qed.
(** tests/resolver/test_expression.c test_resolve_subscription_expr *)
Definition test_resolve_subscription_expr := expr_test (new_ast AST_SUBSC_EXPR [(new_identifier_ast AST_IDENT_EXPR [97; 114; 114; 97; 121]); (new_iliteral_ast AST_INT_EXPR (new_signed IInt 0))]) (Some [(fun t => sym_define_memory t [97; 114; 114; 97; 121] (DTYPE_ARRAY DTYPE_INT 5))]) None.
Example test_resolve_subscription_expr_ok : got test_resolve_subscription_expr = Some (new_dtyped_srt SRT_INDIR_EXPR DTYPE_INT [(new_dtyped_srt SRT_PADD_EXPR (DTYPE_POINTER DTYPE_INT) [(new_dtyped_srt SRT_ADDR_EXPR (DTYPE_POINTER DTYPE_INT) [(new_identifier_srt SRT_IDENT_EXPR (DTYPE_ARRAY DTYPE_INT 5) [97; 114; 114; 97; 121])]); (new_iliteral_srt DTYPE_INT (new_signed IInt 0))])]). Proof. vm_compute. reflexivity. Qed.
(** tests/resolver/test_expression.c test_resolve_reversed_subscription_expr *)
Definition test_resolve_reversed_subscription_expr := expr_test (new_ast AST_SUBSC_EXPR [(new_iliteral_ast AST_INT_EXPR (new_signed IInt 0)); (new_identifier_ast AST_IDENT_EXPR [97; 114; 114; 97; 121])]) (Some [(fun t => sym_define_memory t [97; 114; 114; 97; 121] (DTYPE_ARRAY DTYPE_CHAR 5))]) None.
Example test_resolve_reversed_subscription_expr_ok : got test_resolve_reversed_subscription_expr = Some (new_dtyped_srt SRT_INDIR_EXPR DTYPE_CHAR [(new_dtyped_srt SRT_PADD_EXPR (DTYPE_POINTER DTYPE_CHAR) [(new_dtyped_srt SRT_ADDR_EXPR (DTYPE_POINTER DTYPE_CHAR) [(new_identifier_srt SRT_IDENT_EXPR (DTYPE_ARRAY DTYPE_CHAR 5) [97; 114; 114; 97; 121])]); (new_iliteral_srt DTYPE_INT (new_signed IInt 0))])]). Proof. vm_compute. reflexivity. Qed.
(** tests/resolver/test_expression.c test_resolve_member_expr *)
Definition test_resolve_member_expr := expr_test (new_ast AST_MEMBER_EXPR [(new_identifier_ast AST_IDENT_EXPR [115; 116; 114; 117; 99; 116; 117; 114; 101]); (new_identifier_ast AST_IDENT_EXPR [109; 101; 109; 98; 101; 114])]) (Some [(fun t => sym_define_memory t [115; 116; 114; 117; 99; 116; 117; 114; 101] (DTYPE_NSTRUCT [83; 116; 114; 117; 99; 116] 4 4))]) (Some [(fun t => tag_define_struct t [83; 116; 114; 117; 99; 116] [([109; 101; 109; 98; 101; 114], DTYPE_INT)])]).
Example test_resolve_member_expr_ok : got test_resolve_member_expr = Some (new_dtyped_srt SRT_TOMEMBER_EXPR DTYPE_INT [(new_dtyped_srt SRT_ADDR_EXPR (DTYPE_POINTER (DTYPE_NSTRUCT [83; 116; 114; 117; 99; 116] 4 4)) [(new_identifier_srt SRT_IDENT_EXPR (DTYPE_NSTRUCT [83; 116; 114; 117; 99; 116] 4 4) [115; 116; 114; 117; 99; 116; 117; 114; 101])]); (new_identifier_srt SRT_IDENT_EXPR DTYPE_INT [109; 101; 109; 98; 101; 114])]). Proof. vm_compute. reflexivity. Qed.
(** tests/resolver/test_expression.c test_resolve_tomember_expr *)
Definition test_resolve_tomember_expr := expr_test (new_ast AST_TOMEMBER_EXPR [(new_identifier_ast AST_IDENT_EXPR [115; 116; 114; 117; 99; 116; 117; 114; 101]); (new_identifier_ast AST_IDENT_EXPR [109; 101; 109; 98; 101; 114])]) (Some [(fun t => sym_define_memory t [115; 116; 114; 117; 99; 116; 117; 114; 101] (DTYPE_POINTER (DTYPE_NSTRUCT [83; 116; 114; 117; 99; 116] 4 4)))]) (Some [(fun t => tag_define_struct t [83; 116; 114; 117; 99; 116] [([109; 101; 109; 98; 101; 114], DTYPE_INT)])]).
Example test_resolve_tomember_expr_ok : got test_resolve_tomember_expr = Some (new_dtyped_srt SRT_TOMEMBER_EXPR DTYPE_INT [(new_identifier_srt SRT_IDENT_EXPR (DTYPE_POINTER (DTYPE_NSTRUCT [83; 116; 114; 117; 99; 116] 4 4)) [115; 116; 114; 117; 99; 116; 117; 114; 101]); (new_identifier_srt SRT_IDENT_EXPR DTYPE_INT [109; 101; 109; 98; 101; 114])]). Proof. vm_compute. reflexivity. Qed.
(** tests/resolver/test_expression.c test_resolve_postinc_expr *)
Definition test_resolve_postinc_expr := expr_test (new_ast AST_POSTINC_EXPR [(new_identifier_ast AST_IDENT_EXPR [105])]) (Some [(fun t => sym_define_memory t [105] DTYPE_INT)]) None.
Example test_resolve_postinc_expr_ok : got test_resolve_postinc_expr = Some (new_dtyped_srt SRT_POSTINC_EXPR DTYPE_INT [(new_dtyped_srt SRT_ADDR_EXPR (DTYPE_POINTER DTYPE_INT) [(new_identifier_srt SRT_IDENT_EXPR DTYPE_INT [105])])]). Proof. vm_compute. reflexivity. Qed.
(** tests/resolver/test_expression.c test_resolve_postdec_expr *)
Definition test_resolve_postdec_expr := expr_test (new_ast AST_POSTDEC_EXPR [(new_ast AST_SUBSC_EXPR [(new_identifier_ast AST_IDENT_EXPR [98]); (new_identifier_ast AST_IDENT_EXPR [106])])]) (Some [(fun t => sym_define_memory t [98] (DTYPE_ARRAY DTYPE_INT 5)); (fun t => sym_define_memory t [106] DTYPE_INT)]) None.
Example test_resolve_postdec_expr_ok : got test_resolve_postdec_expr = Some (new_dtyped_srt SRT_POSTDEC_EXPR DTYPE_INT [(new_dtyped_srt SRT_ADDR_EXPR (DTYPE_POINTER DTYPE_INT) [(new_dtyped_srt SRT_INDIR_EXPR DTYPE_INT [(new_dtyped_srt SRT_PADD_EXPR (DTYPE_POINTER DTYPE_INT) [(new_dtyped_srt SRT_ADDR_EXPR (DTYPE_POINTER DTYPE_INT) [(new_identifier_srt SRT_IDENT_EXPR (DTYPE_ARRAY DTYPE_INT 5) [98])]); (new_identifier_srt SRT_IDENT_EXPR DTYPE_INT [106])])])])]). Proof. vm_compute. reflexivity. Qed.
(** tests/resolver/test_expression.c test_resolve_pointer_postinc_expr *)
Definition test_resolve_pointer_postinc_expr := expr_test (new_ast AST_POSTINC_EXPR [(new_identifier_ast AST_IDENT_EXPR [112])]) (Some [(fun t => sym_define_memory t [112] (DTYPE_POINTER DTYPE_INT))]) None.
Example test_resolve_pointer_postinc_expr_ok : got test_resolve_pointer_postinc_expr = Some (new_dtyped_srt SRT_POSTINC_EXPR (DTYPE_POINTER DTYPE_INT) [(new_dtyped_srt SRT_ADDR_EXPR (DTYPE_POINTER (DTYPE_POINTER DTYPE_INT)) [(new_identifier_srt SRT_IDENT_EXPR (DTYPE_POINTER DTYPE_INT) [112])])]). Proof. vm_compute. reflexivity. Qed.
(** tests/resolver/test_expression.c test_resolve_pointer_postdec_expr *)
Definition test_resolve_pointer_postdec_expr := expr_test (new_ast AST_POSTDEC_EXPR [(new_identifier_ast AST_IDENT_EXPR [113])]) (Some [(fun t => sym_define_memory t [113] (DTYPE_POINTER DTYPE_INT))]) None.
Example test_resolve_pointer_postdec_expr_ok : got test_resolve_pointer_postdec_expr = Some (new_dtyped_srt SRT_POSTDEC_EXPR (DTYPE_POINTER DTYPE_INT) [(new_dtyped_srt SRT_ADDR_EXPR (DTYPE_POINTER (DTYPE_POINTER DTYPE_INT)) [(new_identifier_srt SRT_IDENT_EXPR (DTYPE_POINTER DTYPE_INT) [113])])]). Proof. vm_compute. reflexivity. Qed.
(** tests/resolver/test_expression.c test_resolve_ident_expr_local *)
Definition test_resolve_ident_expr_local := expr_test (new_identifier_ast AST_IDENT_EXPR [108; 111; 99; 97; 108]) (Some [(fun t => sym_define_memory t [108; 111; 99; 97; 108] DTYPE_CHAR)]) None.
Example test_resolve_ident_expr_local_ok : got test_resolve_ident_expr_local = Some (new_identifier_srt SRT_IDENT_EXPR DTYPE_CHAR [108; 111; 99; 97; 108]). Proof. vm_compute. reflexivity. Qed.
(** tests/resolver/test_expression.c test_resolve_ident_expr_global *)
Definition test_resolve_ident_expr_global := global_expr_test (new_identifier_ast AST_IDENT_EXPR [103; 108; 111; 98; 97; 108]) (Some [(fun t => sym_define_label t [103; 108; 111; 98; 97; 108] DTYPE_INT)]) None.
Example test_resolve_ident_expr_global_ok : got test_resolve_ident_expr_global = Some (new_identifier_srt SRT_IDENT_EXPR DTYPE_INT [103; 108; 111; 98; 97; 108]). Proof. vm_compute. reflexivity. Qed.
(** tests/resolver/test_expression.c test_resolve_enum_ident_expr_local *)
Definition test_resolve_enum_ident_expr_local := expr_test (new_identifier_ast AST_IDENT_EXPR [76; 79; 67; 65; 76; 95; 77; 69; 77; 66; 69; 82]) (Some [(fun t => sym_define_integer t [76; 79; 67; 65; 76; 95; 77; 69; 77; 66; 69; 82] DTYPE_INT (new_signed IInt 4))]) None.
Example test_resolve_enum_ident_expr_local_ok : got test_resolve_enum_ident_expr_local = Some (new_iliteral_srt DTYPE_INT (new_signed IInt 4)). Proof. vm_compute. reflexivity. Qed.
(** tests/resolver/test_expression.c test_resolve_enum_ident_expr_global *)
Definition test_resolve_enum_ident_expr_global := global_expr_test (new_identifier_ast AST_IDENT_EXPR [71; 76; 79; 66; 65; 76; 95; 77; 69; 77; 66; 69; 82]) (Some [(fun t => sym_define_integer t [71; 76; 79; 66; 65; 76; 95; 77; 69; 77; 66; 69; 82] DTYPE_INT (new_signed IInt 1))]) None.
Example test_resolve_enum_ident_expr_global_ok : got test_resolve_enum_ident_expr_global = Some (new_iliteral_srt DTYPE_INT (new_signed IInt 1)). Proof. vm_compute. reflexivity. Qed.
(** tests/resolver/test_expression.c test_resolve_iliteral_expr_char *)
Definition test_resolve_iliteral_expr_char := expr_test (new_iliteral_ast AST_CHAR_EXPR (new_signed IInt 89)) None None.
Example test_resolve_iliteral_expr_char_ok : got test_resolve_iliteral_expr_char = Some (new_iliteral_srt DTYPE_INT (new_signed IInt 89)). Proof. vm_compute. reflexivity. Qed.
(** tests/resolver/test_expression.c test_resolve_iliteral_expr_int *)
Definition test_resolve_iliteral_expr_int := expr_test (new_iliteral_ast AST_INT_EXPR (new_signed IInt 3)) None None.
Example test_resolve_iliteral_expr_int_ok : got test_resolve_iliteral_expr_int = Some (new_iliteral_srt DTYPE_INT (new_signed IInt 3)). Proof. vm_compute. reflexivity. Qed.
(** tests/resolver/test_expression.c test_resolve_iliteral_expr_unsigned_int *)
Definition test_resolve_iliteral_expr_unsigned_int := expr_test (new_iliteral_ast AST_INT_EXPR (new_unsigned IUInt 16)) None None.
Example test_resolve_iliteral_expr_unsigned_int_ok : got test_resolve_iliteral_expr_unsigned_int = Some (new_iliteral_srt DTYPE_UNSIGNED_INT (new_unsigned IUInt 16)). Proof. vm_compute. reflexivity. Qed.
(** tests/resolver/test_expression.c test_resolve_iliteral_expr_long *)
Definition test_resolve_iliteral_expr_long := expr_test (new_iliteral_ast AST_INT_EXPR (new_signed ILong 4)) None None.
Example test_resolve_iliteral_expr_long_ok : got test_resolve_iliteral_expr_long = Some (new_iliteral_srt DTYPE_LONG (new_signed ILong 4)). Proof. vm_compute. reflexivity. Qed.
(** tests/resolver/test_expression.c test_resolve_iliteral_expr_unsigned_long *)
Definition test_resolve_iliteral_expr_unsigned_long := expr_test (new_iliteral_ast AST_INT_EXPR (new_unsigned IULong 9)) None None.
Example test_resolve_iliteral_expr_unsigned_long_ok : got test_resolve_iliteral_expr_unsigned_long = Some (new_iliteral_srt DTYPE_UNSIGNED_LONG (new_unsigned IULong 9)). Proof. vm_compute. reflexivity. Qed.
(** tests/resolver/test_expression.c test_resolve_iliteral_expr_long_long *)
Definition test_resolve_iliteral_expr_long_long := expr_test (new_iliteral_ast AST_INT_EXPR (new_signed ILongLong 8)) None None.
Example test_resolve_iliteral_expr_long_long_ok : got test_resolve_iliteral_expr_long_long = Some (new_iliteral_srt DTYPE_LONGLONG (new_signed ILongLong 8)). Proof. vm_compute. reflexivity. Qed.
(** tests/resolver/test_expression.c test_resolve_iliteral_expr_unsigned_long_long *)
Definition test_resolve_iliteral_expr_unsigned_long_long := expr_test (new_iliteral_ast AST_INT_EXPR (new_unsigned IULongLong 20)) None None.
Example test_resolve_iliteral_expr_unsigned_long_long_ok : got test_resolve_iliteral_expr_unsigned_long_long = Some (new_iliteral_srt DTYPE_UNSIGNED_LONGLONG (new_unsigned IULongLong 20)). Proof. vm_compute. reflexivity. Qed.
(** tests/resolver/test_expression.c test_resolve_sliteral_expr *)
Definition test_resolve_sliteral_expr := expr_test (new_sliteral_ast AST_STRING_EXPR [72; 101; 108; 108; 111; 0]) None None.
Example test_resolve_sliteral_expr_ok : got test_resolve_sliteral_expr = Some (new_string_srt SRT_STR_EXPR (DTYPE_ARRAY DTYPE_CHAR 6) 0). Proof. vm_compute. reflexivity. Qed.
Example test_resolve_sliteral_expr_extra : tu test_resolve_sliteral_expr = srt_children (new_srt SRT_TRAS_UNIT [(new_srt SRT_DECL_LIST [(new_srt SRT_INIT_DECL [(new_string_srt SRT_STR_DECL (DTYPE_ARRAY DTYPE_CHAR 6) 0); (new_srt SRT_INIT [(new_sliteral_srt (DTYPE_ARRAY DTYPE_CHAR 6) [72; 101; 108; 108; 111; 0])])])])]). Proof. vm_compute. reflexivity. Qed.
(** tests/resolver/test_expression_error.c test_resolve_assignment_expr_error_unassignable *)
Definition test_resolve_assignment_expr_error_unassignable := expr_test (new_ast AST_ASSIGN_EXPR [(new_identifier_ast AST_IDENT_EXPR [120]); (new_identifier_ast AST_IDENT_EXPR [121])]) (Some [(fun t => sym_define_memory t [120] DTYPE_INT); (fun t => sym_define_memory t [121] (DTYPE_POINTER DTYPE_INT))]) None.
Example test_resolve_assignment_expr_error_unassignable_ok : errs test_resolve_assignment_expr_error_unassignable = true. Proof. vm_compute. reflexivity. Qed.
(** tests/resolver/test_expression_error.c test_resolve_assignment_expr_error_void *)
Definition test_resolve_assignment_expr_error_void := expr_test (new_ast AST_ASSIGN_EXPR [(new_identifier_ast AST_IDENT_EXPR [120]); (new_ast AST_CALL_EXPR [(new_identifier_ast AST_IDENT_EXPR [102; 117; 110; 99; 116; 105; 111; 110]); (new_ast AST_ARG_LIST [])])]) (Some [(fun t => sym_define_memory t [120] DTYPE_INT); (fun t => sym_define_memory t [102; 117; 110; 99; 116; 105; 111; 110] (DTYPE_FUNCTION [] DTYPE_VOID))]) None.
Example test_resolve_assignment_expr_error_void_ok : errs test_resolve_assignment_expr_error_void = true. Proof. vm_compute. reflexivity. Qed.
(** tests/resolver/test_expression_error.c test_resolve_assignment_expr_error_unmodifiable *)
Definition test_resolve_assignment_expr_error_unmodifiable := expr_test (new_ast AST_ASSIGN_EXPR [(new_identifier_ast AST_IDENT_EXPR [120]); (new_identifier_ast AST_IDENT_EXPR [121])]) (Some [(fun t => sym_define_memory t [120] (DTYPE_ARRAY DTYPE_INT 3)); (fun t => sym_define_memory t [121] (DTYPE_POINTER DTYPE_INT))]) None.
Example test_resolve_assignment_expr_error_unmodifiable_ok : errs test_resolve_assignment_expr_error_unmodifiable = true. Proof. vm_compute. reflexivity. Qed.
(** tests/resolver/test_expression_error.c test_resolve_assignment_expr_error_lhs *)
Definition test_resolve_assignment_expr_error_lhs := expr_test (new_ast AST_ASSIGN_EXPR [(new_identifier_ast AST_IDENT_EXPR [120]); (new_identifier_ast AST_IDENT_EXPR [121])]) None None.
Example test_resolve_assignment_expr_error_lhs_ok : errs test_resolve_assignment_expr_error_lhs = true. Proof. vm_compute. reflexivity. Qed.
(** tests/resolver/test_expression_error.c test_resolve_assignment_expr_error_rhs *)
Definition test_resolve_assignment_expr_error_rhs := expr_test (new_ast AST_ASSIGN_EXPR [(new_identifier_ast AST_IDENT_EXPR [120]); (new_identifier_ast AST_IDENT_EXPR [121])]) (Some [(fun t => sym_define_memory t [120] DTYPE_INT)]) None.
Example test_resolve_assignment_expr_error_rhs_ok : errs test_resolve_assignment_expr_error_rhs = true. Proof. vm_compute. reflexivity. Qed.
(** tests/resolver/test_expression_error.c test_resolve_multiply_assignment_expr_error_non_arithmetic *)
Definition test_resolve_multiply_assignment_expr_error_non_arithmetic := expr_test (new_ast AST_MUL_ASSIGN_EXPR [(new_identifier_ast AST_IDENT_EXPR [112]); (new_iliteral_ast AST_INT_EXPR (new_signed IInt 5))]) (Some [(fun t => sym_define_memory t [112] (DTYPE_POINTER DTYPE_INT))]) None.
Example test_resolve_multiply_assignment_expr_error_non_arithmetic_ok : errs test_resolve_multiply_assignment_expr_error_non_arithmetic = true. Proof. vm_compute. reflexivity. Qed.
(** tests/resolver/test_expression_error.c test_resolve_division_assignment_expr_error_non_arithmetic *)
Definition test_resolve_division_assignment_expr_error_non_arithmetic := expr_test (new_ast AST_DIV_ASSIGN_EXPR [(new_identifier_ast AST_IDENT_EXPR [105]); (new_identifier_ast AST_IDENT_EXPR [112])]) (Some [(fun t => sym_define_memory t [105] DTYPE_INT); (fun t => sym_define_memory t [112] (DTYPE_POINTER DTYPE_INT))]) None.
Example test_resolve_division_assignment_expr_error_non_arithmetic_ok : errs test_resolve_division_assignment_expr_error_non_arithmetic = true. Proof. vm_compute. reflexivity. Qed.
(** tests/resolver/test_expression_error.c test_resolve_modulo_assignment_expr_error_non_integer *)
Definition test_resolve_modulo_assignment_expr_error_non_integer := expr_test (new_ast AST_MOD_ASSIGN_EXPR [(new_identifier_ast AST_IDENT_EXPR [112]); (new_identifier_ast AST_IDENT_EXPR [113])]) (Some [(fun t => sym_define_memory t [112] (DTYPE_POINTER DTYPE_CHAR)); (fun t => sym_define_memory t [113] (DTYPE_POINTER DTYPE_INT))]) None.
Example test_resolve_modulo_assignment_expr_error_non_integer_ok : errs test_resolve_modulo_assignment_expr_error_non_integer = true. Proof. vm_compute. reflexivity. Qed.
(** tests/resolver/test_expression_error.c test_resolve_add_assignment_expr_error_operand_dtype *)
Definition test_resolve_add_assignment_expr_error_operand_dtype := expr_test (new_ast AST_ADD_ASSIGN_EXPR [(new_identifier_ast AST_IDENT_EXPR [112]); (new_identifier_ast AST_IDENT_EXPR [113])]) (Some [(fun t => sym_define_memory t [112] (DTYPE_POINTER DTYPE_INT)); (fun t => sym_define_memory t [113] (DTYPE_POINTER DTYPE_CHAR))]) None.
Example test_resolve_add_assignment_expr_error_operand_dtype_ok : errs test_resolve_add_assignment_expr_error_operand_dtype = true. Proof. vm_compute. reflexivity. Qed.
(** tests/resolver/test_expression_error.c test_resolve_add_assignment_expr_error_int_and_pointer *)
Definition test_resolve_add_assignment_expr_error_int_and_pointer := expr_test (new_ast AST_ADD_ASSIGN_EXPR [(new_identifier_ast AST_IDENT_EXPR [120]); (new_identifier_ast AST_IDENT_EXPR [112])]) (Some [(fun t => sym_define_memory t [120] DTYPE_INT); (fun t => sym_define_memory t [112] (DTYPE_POINTER DTYPE_INT))]) None.
Example test_resolve_add_assignment_expr_error_int_and_pointer_ok : errs test_resolve_add_assignment_expr_error_int_and_pointer = true. Proof. vm_compute. reflexivity. Qed.
(** tests/resolver/test_expression_error.c test_resolve_subtract_assignment_expr_error_operand_dtype *)
Definition test_resolve_subtract_assignment_expr_error_operand_dtype := expr_test (new_ast AST_SUB_ASSIGN_EXPR [(new_identifier_ast AST_IDENT_EXPR [120]); (new_identifier_ast AST_IDENT_EXPR [115; 116; 114; 117; 99; 116; 117; 114; 101])]) (Some [(fun t => sym_define_memory t [120] DTYPE_INT); (fun t => sym_define_memory t [115; 116; 114; 117; 99; 116; 117; 114; 101] (ust [([109; 101; 109; 98; 101; 114], DTYPE_INT)]))]) None.
Example test_resolve_subtract_assignment_expr_error_operand_dtype_ok : errs test_resolve_subtract_assignment_expr_error_operand_dtype = true. Proof. vm_compute. reflexivity. Qed.
(** tests/resolver/test_expression_error.c test_resolve_subtract_assignment_expr_error_pointer_diff *)
Definition test_resolve_subtract_assignment_expr_error_pointer_diff := expr_test (new_ast AST_SUB_ASSIGN_EXPR [(new_identifier_ast AST_IDENT_EXPR [112]); (new_identifier_ast AST_IDENT_EXPR [113])]) (Some [(fun t => sym_define_memory t [112] (DTYPE_POINTER DTYPE_INT)); (fun t => sym_define_memory t [113] (DTYPE_POINTER DTYPE_INT))]) None.
Example test_resolve_subtract_assignment_expr_error_pointer_diff_ok : errs test_resolve_subtract_assignment_expr_error_pointer_diff = true. Proof. vm_compute. reflexivity. Qed.
(** tests/resolver/test_expression_error.c test_resolve_bitwise_lshift_assignment_expr_error_non_integer *)
Definition test_resolve_bitwise_lshift_assignment_expr_error_non_integer := expr_test (new_ast AST_LSHIFT_ASSIGN_EXPR [(new_identifier_ast AST_IDENT_EXPR [112]); (new_iliteral_ast AST_INT_EXPR (new_signed IInt 2))]) (Some [(fun t => sym_define_memory t [112] (DTYPE_POINTER DTYPE_INT))]) None.
Example test_resolve_bitwise_lshift_assignment_expr_error_non_integer_ok : errs test_resolve_bitwise_lshift_assignment_expr_error_non_integer = true. Proof. vm_compute. reflexivity. Qed.
(** tests/resolver/test_expression_error.c test_resolve_bitwise_rshift_assignment_expr_error_non_integer *)
Definition test_resolve_bitwise_rshift_assignment_expr_error_non_integer := expr_test (new_ast AST_RSHIFT_ASSIGN_EXPR [(new_identifier_ast AST_IDENT_EXPR [110]); (new_identifier_ast AST_IDENT_EXPR [113])]) (Some [(fun t => sym_define_memory t [110] DTYPE_INT); (fun t => sym_define_memory t [113] (DTYPE_POINTER DTYPE_INT))]) None.
Example test_resolve_bitwise_rshift_assignment_expr_error_non_integer_ok : errs test_resolve_bitwise_rshift_assignment_expr_error_non_integer = true. Proof. vm_compute. reflexivity. Qed.
(** tests/resolver/test_expression_error.c test_resolve_bitwise_inclusive_or_assignment_expr_error_non_integer *)
Definition test_resolve_bitwise_inclusive_or_assignment_expr_error_non_integer := expr_test (new_ast AST_OR_ASSIGN_EXPR [(new_identifier_ast AST_IDENT_EXPR [120]); (new_identifier_ast AST_IDENT_EXPR [112])]) (Some [(fun t => sym_define_memory t [120] DTYPE_INT); (fun t => sym_define_memory t [112] (DTYPE_POINTER DTYPE_CHAR))]) None.
Example test_resolve_bitwise_inclusive_or_assignment_expr_error_non_integer_ok : errs test_resolve_bitwise_inclusive_or_assignment_expr_error_non_integer = true. Proof. vm_compute. reflexivity. Qed.
(** tests/resolver/test_expression_error.c test_resolve_bitwise_exclusive_or_assignment_expr_error_non_integer *)
Definition test_resolve_bitwise_exclusive_or_assignment_expr_error_non_integer := expr_test (new_ast AST_XOR_ASSIGN_EXPR [(new_identifier_ast AST_IDENT_EXPR [112]); (new_identifier_ast AST_IDENT_EXPR [121])]) (Some [(fun t => sym_define_memory t [112] (DTYPE_POINTER DTYPE_INT)); (fun t => sym_define_memory t [121] DTYPE_INT)]) None.
Example test_resolve_bitwise_exclusive_or_assignment_expr_error_non_integer_ok : errs test_resolve_bitwise_exclusive_or_assignment_expr_error_non_integer = true. Proof. vm_compute. reflexivity. Qed.
(** tests/resolver/test_expression_error.c test_resolve_bitwise_and_assignment_expr_error_non_integer *)
Definition test_resolve_bitwise_and_assignment_expr_error_non_integer := expr_test (new_ast AST_AND_ASSIGN_EXPR [(new_identifier_ast AST_IDENT_EXPR [120]); (new_identifier_ast AST_IDENT_EXPR [112])]) (Some [(fun t => sym_define_memory t [120] DTYPE_INT); (fun t => sym_define_memory t [112] (DTYPE_POINTER DTYPE_CHAR))]) None.
Example test_resolve_bitwise_and_assignment_expr_error_non_integer_ok : errs test_resolve_bitwise_and_assignment_expr_error_non_integer = true. Proof. vm_compute. reflexivity. Qed.
(** tests/resolver/test_expression_error.c test_resolve_conditional_expr_error_condition_child *)
Definition test_resolve_conditional_expr_error_condition_child := expr_test (new_ast AST_COND_EXPR [(new_identifier_ast AST_IDENT_EXPR [120]); (new_identifier_ast AST_IDENT_EXPR [121]); (new_identifier_ast AST_IDENT_EXPR [122])]) (Some [(fun t => sym_define_memory t [121] DTYPE_INT); (fun t => sym_define_memory t [122] DTYPE_INT)]) None.
Example test_resolve_conditional_expr_error_condition_child_ok : errs test_resolve_conditional_expr_error_condition_child = true. Proof. vm_compute. reflexivity. Qed.
(** tests/resolver/test_expression_error.c test_resolve_conditional_expr_error_condition_non_scalar *)
Definition test_resolve_conditional_expr_error_condition_non_scalar := expr_test (new_ast AST_COND_EXPR [(new_identifier_ast AST_IDENT_EXPR [115; 116; 114; 117; 99; 116; 117; 114; 101]); (new_identifier_ast AST_IDENT_EXPR [121]); (new_identifier_ast AST_IDENT_EXPR [122])]) (Some [(fun t => sym_define_memory t [115; 116; 114; 117; 99; 116; 117; 114; 101] (ust [([109; 101; 109; 98; 101; 114], DTYPE_INT)])); (fun t => sym_define_memory t [121] DTYPE_INT); (fun t => sym_define_memory t [122] DTYPE_INT)]) None.
Example test_resolve_conditional_expr_error_condition_non_scalar_ok : errs test_resolve_conditional_expr_error_condition_non_scalar = true. Proof. vm_compute. reflexivity. Qed.
(** tests/resolver/test_expression_error.c test_resolve_conditional_expr_error_lhs *)
Definition test_resolve_conditional_expr_error_lhs := expr_test (new_ast AST_COND_EXPR [(new_identifier_ast AST_IDENT_EXPR [120]); (new_identifier_ast AST_IDENT_EXPR [121]); (new_identifier_ast AST_IDENT_EXPR [122])]) (Some [(fun t => sym_define_memory t [120] DTYPE_INT); (fun t => sym_define_memory t [122] DTYPE_INT)]) None.
Example test_resolve_conditional_expr_error_lhs_ok : errs test_resolve_conditional_expr_error_lhs = true. Proof. vm_compute. reflexivity. Qed.
(** tests/resolver/test_expression_error.c test_resolve_conditional_expr_error_rhs *)
Definition test_resolve_conditional_expr_error_rhs := expr_test (new_ast AST_COND_EXPR [(new_identifier_ast AST_IDENT_EXPR [120]); (new_identifier_ast AST_IDENT_EXPR [121]); (new_identifier_ast AST_IDENT_EXPR [122])]) (Some [(fun t => sym_define_memory t [120] DTYPE_INT); (fun t => sym_define_memory t [121] DTYPE_INT)]) None.
Example test_resolve_conditional_expr_error_rhs_ok : errs test_resolve_conditional_expr_error_rhs = true. Proof. vm_compute. reflexivity. Qed.
(** tests/resolver/test_expression_error.c test_resolve_conditional_expr_error_incompatible_dtype *)
Definition test_resolve_conditional_expr_error_incompatible_dtype := expr_test (new_ast AST_COND_EXPR [(new_identifier_ast AST_IDENT_EXPR [120]); (new_identifier_ast AST_IDENT_EXPR [121]); (new_identifier_ast AST_IDENT_EXPR [122])]) (Some [(fun t => sym_define_memory t [120] DTYPE_INT); (fun t => sym_define_memory t [121] DTYPE_INT); (fun t => sym_define_memory t [122] (DTYPE_POINTER DTYPE_INT))]) None.
Example test_resolve_conditional_expr_error_incompatible_dtype_ok : errs test_resolve_conditional_expr_error_incompatible_dtype = true. Proof. vm_compute. reflexivity. Qed.
(** tests/resolver/test_expression_error.c test_resolve_conditional_expr_error_incompatible_pointer *)
Definition test_resolve_conditional_expr_error_incompatible_pointer := expr_test (new_ast AST_COND_EXPR [(new_identifier_ast AST_IDENT_EXPR [120]); (new_identifier_ast AST_IDENT_EXPR [121]); (new_identifier_ast AST_IDENT_EXPR [122])]) (Some [(fun t => sym_define_memory t [120] DTYPE_INT); (fun t => sym_define_memory t [121] (DTYPE_POINTER DTYPE_LONG)); (fun t => sym_define_memory t [122] (DTYPE_POINTER DTYPE_INT))]) None.
Example test_resolve_conditional_expr_error_incompatible_pointer_ok : errs test_resolve_conditional_expr_error_incompatible_pointer = true. Proof. vm_compute. reflexivity. Qed.
(** tests/resolver/test_expression_error.c test_resolve_conditional_expr_error_different_struct *)
Definition test_resolve_conditional_expr_error_different_struct := expr_test (new_ast AST_COND_EXPR [(new_identifier_ast AST_IDENT_EXPR [120]); (new_identifier_ast AST_IDENT_EXPR [121]); (new_identifier_ast AST_IDENT_EXPR [122])]) (Some [(fun t => sym_define_memory t [120] DTYPE_INT); (fun t => sym_define_memory t [121] (ust [([109; 101; 109; 98; 101; 114], DTYPE_LONG)])); (fun t => sym_define_memory t [122] (ust [([109; 101; 109; 98; 101; 114], DTYPE_INT)]))]) None.
Example test_resolve_conditional_expr_error_different_struct_ok : errs test_resolve_conditional_expr_error_different_struct = true. Proof. vm_compute. reflexivity. Qed.
(** tests/resolver/test_expression_error.c test_resolve_logical_or_expr_error_non_scalar_lhs *)
Definition test_resolve_logical_or_expr_error_non_scalar_lhs := expr_test (new_ast AST_LOR_EXPR [(new_identifier_ast AST_IDENT_EXPR [115; 116; 114; 117; 99; 116; 117; 114; 101]); (new_identifier_ast AST_IDENT_EXPR [121])]) (Some [(fun t => sym_define_memory t [115; 116; 114; 117; 99; 116; 117; 114; 101] (ust [([109; 101; 109; 98; 101; 114], DTYPE_INT)])); (fun t => sym_define_memory t [121] DTYPE_INT)]) None.
Example test_resolve_logical_or_expr_error_non_scalar_lhs_ok : errs test_resolve_logical_or_expr_error_non_scalar_lhs = true. Proof. vm_compute. reflexivity. Qed.
(** tests/resolver/test_expression_error.c test_resolve_logical_or_expr_error_non_scalar_rhs *)
Definition test_resolve_logical_or_expr_error_non_scalar_rhs := expr_test (new_ast AST_LOR_EXPR [(new_identifier_ast AST_IDENT_EXPR [120]); (new_identifier_ast AST_IDENT_EXPR [115; 116; 114; 117; 99; 116; 117; 114; 101])]) (Some [(fun t => sym_define_memory t [120] DTYPE_INT); (fun t => sym_define_memory t [115; 116; 114; 117; 99; 116; 117; 114; 101] (ust [([109; 101; 109; 98; 101; 114], DTYPE_INT)]))]) None.
Example test_resolve_logical_or_expr_error_non_scalar_rhs_ok : errs test_resolve_logical_or_expr_error_non_scalar_rhs = true. Proof. vm_compute. reflexivity. Qed.
(** tests/resolver/test_expression_error.c test_resolve_logical_or_expr_error_lhs *)
Definition test_resolve_logical_or_expr_error_lhs := expr_test (new_ast AST_LOR_EXPR [(new_identifier_ast AST_IDENT_EXPR [120]); (new_identifier_ast AST_IDENT_EXPR [121])]) None None.
Example test_resolve_logical_or_expr_error_lhs_ok : errs test_resolve_logical_or_expr_error_lhs = true. Proof. vm_compute. reflexivity. Qed.
(** tests/resolver/test_expression_error.c test_resolve_logical_or_expr_error_rhs *)
Definition test_resolve_logical_or_expr_error_rhs := expr_test (new_ast AST_LOR_EXPR [(new_identifier_ast AST_IDENT_EXPR [120]); (new_identifier_ast AST_IDENT_EXPR [121])]) (Some [(fun t => sym_define_memory t [120] DTYPE_INT)]) None.
Example test_resolve_logical_or_expr_error_rhs_ok : errs test_resolve_logical_or_expr_error_rhs = true. Proof. vm_compute. reflexivity. Qed.
(** tests/resolver/test_expression_error.c test_resolve_logical_and_expr_error_non_scalar_lhs *)
Definition test_resolve_logical_and_expr_error_non_scalar_lhs := expr_test (new_ast AST_LAND_EXPR [(new_identifier_ast AST_IDENT_EXPR [120]); (new_identifier_ast AST_IDENT_EXPR [115; 116; 114; 117; 99; 116; 117; 114; 101])]) (Some [(fun t => sym_define_memory t [120] DTYPE_INT); (fun t => sym_define_memory t [115; 116; 114; 117; 99; 116; 117; 114; 101] (ust [([109; 101; 109; 98; 101; 114], DTYPE_INT)]))]) None.
Example test_resolve_logical_and_expr_error_non_scalar_lhs_ok : errs test_resolve_logical_and_expr_error_non_scalar_lhs = true. Proof. vm_compute. reflexivity. Qed.
(** tests/resolver/test_expression_error.c test_resolve_logical_and_expr_error_non_scalar_rhs *)
Definition test_resolve_logical_and_expr_error_non_scalar_rhs := expr_test (new_ast AST_LAND_EXPR [(new_identifier_ast AST_IDENT_EXPR [115; 116; 114; 117; 99; 116; 117; 114; 101]); (new_identifier_ast AST_IDENT_EXPR [121])]) (Some [(fun t => sym_define_memory t [115; 116; 114; 117; 99; 116; 117; 114; 101] (ust [([109; 101; 109; 98; 101; 114], DTYPE_INT)])); (fun t => sym_define_memory t [121] DTYPE_INT)]) None.
Example test_resolve_logical_and_expr_error_non_scalar_rhs_ok : errs test_resolve_logical_and_expr_error_non_scalar_rhs = true. Proof. vm_compute. reflexivity. Qed.
(** tests/resolver/test_expression_error.c test_resolve_logical_and_expr_error_lhs *)
Definition test_resolve_logical_and_expr_error_lhs := expr_test (new_ast AST_LAND_EXPR [(new_identifier_ast AST_IDENT_EXPR [120]); (new_identifier_ast AST_IDENT_EXPR [121])]) None None.
Example test_resolve_logical_and_expr_error_lhs_ok : errs test_resolve_logical_and_expr_error_lhs = true. Proof. vm_compute. reflexivity. Qed.
(** tests/resolver/test_expression_error.c test_resolve_logical_and_expr_error_rhs *)
Definition test_resolve_logical_and_expr_error_rhs := expr_test (new_ast AST_LAND_EXPR [(new_identifier_ast AST_IDENT_EXPR [120]); (new_identifier_ast AST_IDENT_EXPR [121])]) (Some [(fun t => sym_define_memory t [120] DTYPE_INT)]) None.
Example test_resolve_logical_and_expr_error_rhs_ok : errs test_resolve_logical_and_expr_error_rhs = true. Proof. vm_compute. reflexivity. Qed.
(** tests/resolver/test_expression_error.c test_resolve_bitwise_inclusive_or_expr_error_non_integer *)
Definition test_resolve_bitwise_inclusive_or_expr_error_non_integer := expr_test (new_ast AST_OR_EXPR [(new_identifier_ast AST_IDENT_EXPR [112]); (new_identifier_ast AST_IDENT_EXPR [121])]) (Some [(fun t => sym_define_memory t [112] (DTYPE_POINTER DTYPE_CHAR)); (fun t => sym_define_memory t [121] DTYPE_UNSIGNED_INT)]) None.
Example test_resolve_bitwise_inclusive_or_expr_error_non_integer_ok : errs test_resolve_bitwise_inclusive_or_expr_error_non_integer = true. Proof. vm_compute. reflexivity. Qed.
(** tests/resolver/test_expression_error.c test_resolve_bitwise_inclusive_or_expr_error_lhs *)
Definition test_resolve_bitwise_inclusive_or_expr_error_lhs := expr_test (new_ast AST_OR_EXPR [(new_identifier_ast AST_IDENT_EXPR [120]); (new_identifier_ast AST_IDENT_EXPR [121])]) None None.
Example test_resolve_bitwise_inclusive_or_expr_error_lhs_ok : errs test_resolve_bitwise_inclusive_or_expr_error_lhs = true. Proof. vm_compute. reflexivity. Qed.
(** tests/resolver/test_expression_error.c test_resolve_bitwise_inclusive_or_expr_error_rhs *)
Definition test_resolve_bitwise_inclusive_or_expr_error_rhs := expr_test (new_ast AST_OR_EXPR [(new_identifier_ast AST_IDENT_EXPR [120]); (new_identifier_ast AST_IDENT_EXPR [121])]) (Some [(fun t => sym_define_memory t [120] DTYPE_INT)]) None.
Example test_resolve_bitwise_inclusive_or_expr_error_rhs_ok : errs test_resolve_bitwise_inclusive_or_expr_error_rhs = true. Proof. vm_compute. reflexivity. Qed.
(** tests/resolver/test_expression_error.c test_resolve_bitwise_exclusive_or_expr_error_non_integer *)
Definition test_resolve_bitwise_exclusive_or_expr_error_non_integer := expr_test (new_ast AST_XOR_EXPR [(new_identifier_ast AST_IDENT_EXPR [120]); (new_identifier_ast AST_IDENT_EXPR [112])]) (Some [(fun t => sym_define_memory t [120] DTYPE_INT); (fun t => sym_define_memory t [112] (DTYPE_POINTER DTYPE_CHAR))]) None.
Example test_resolve_bitwise_exclusive_or_expr_error_non_integer_ok : errs test_resolve_bitwise_exclusive_or_expr_error_non_integer = true. Proof. vm_compute. reflexivity. Qed.
(** tests/resolver/test_expression_error.c test_resolve_bitwise_exclusive_or_expr_error_lhs *)
Definition test_resolve_bitwise_exclusive_or_expr_error_lhs := expr_test (new_ast AST_XOR_EXPR [(new_identifier_ast AST_IDENT_EXPR [120]); (new_identifier_ast AST_IDENT_EXPR [121])]) None None.
Example test_resolve_bitwise_exclusive_or_expr_error_lhs_ok : errs test_resolve_bitwise_exclusive_or_expr_error_lhs = true. Proof. vm_compute. reflexivity. Qed.
(** tests/resolver/test_expression_error.c test_resolve_bitwise_exclusive_or_expr_error_rhs *)
Definition test_resolve_bitwise_exclusive_or_expr_error_rhs := expr_test (new_ast AST_XOR_EXPR [(new_identifier_ast AST_IDENT_EXPR [120]); (new_identifier_ast AST_IDENT_EXPR [121])]) (Some [(fun t => sym_define_memory t [120] DTYPE_INT)]) None.
Example test_resolve_bitwise_exclusive_or_expr_error_rhs_ok : errs test_resolve_bitwise_exclusive_or_expr_error_rhs = true. Proof. vm_compute. reflexivity. Qed.
(** tests/resolver/test_expression_error.c test_resolve_bitwise_and_expr_error_non_integer *)
Definition test_resolve_bitwise_and_expr_error_non_integer := expr_test (new_ast AST_AND_EXPR [(new_identifier_ast AST_IDENT_EXPR [112]); (new_identifier_ast AST_IDENT_EXPR [121])]) (Some [(fun t => sym_define_memory t [112] (DTYPE_POINTER DTYPE_CHAR)); (fun t => sym_define_memory t [121] DTYPE_LONG)]) None.
Example test_resolve_bitwise_and_expr_error_non_integer_ok : errs test_resolve_bitwise_and_expr_error_non_integer = true. Proof. vm_compute. reflexivity. Qed.
(** tests/resolver/test_expression_error.c test_resolve_bitwise_and_expr_error_lhs *)
Definition test_resolve_bitwise_and_expr_error_lhs := expr_test (new_ast AST_AND_EXPR [(new_identifier_ast AST_IDENT_EXPR [120]); (new_identifier_ast AST_IDENT_EXPR [121])]) None None.
Example test_resolve_bitwise_and_expr_error_lhs_ok : errs test_resolve_bitwise_and_expr_error_lhs = true. Proof. vm_compute. reflexivity. Qed.
(** tests/resolver/test_expression_error.c test_resolve_bitwise_and_expr_error_rhs *)
Definition test_resolve_bitwise_and_expr_error_rhs := expr_test (new_ast AST_AND_EXPR [(new_identifier_ast AST_IDENT_EXPR [120]); (new_identifier_ast AST_IDENT_EXPR [121])]) (Some [(fun t => sym_define_memory t [120] DTYPE_LONG)]) None.
Example test_resolve_bitwise_and_expr_error_rhs_ok : errs test_resolve_bitwise_and_expr_error_rhs = true. Proof. vm_compute. reflexivity. Qed.
(** tests/resolver/test_expression_error.c test_resolve_equal_expr_error_operand_dtype *)
Definition test_resolve_equal_expr_error_operand_dtype := expr_test (new_ast AST_EQUAL_EXPR [(new_identifier_ast AST_IDENT_EXPR [120]); (new_identifier_ast AST_IDENT_EXPR [121])]) (Some [(fun t => sym_define_memory t [120] (DTYPE_POINTER DTYPE_CHAR)); (fun t => sym_define_memory t [121] DTYPE_CHAR)]) None.
Example test_resolve_equal_expr_error_operand_dtype_ok : errs test_resolve_equal_expr_error_operand_dtype = true. Proof. vm_compute. reflexivity. Qed.
(** tests/resolver/test_expression_error.c test_resolve_equal_expr_error_incompatible_pointer *)
Definition test_resolve_equal_expr_error_incompatible_pointer := expr_test (new_ast AST_EQUAL_EXPR [(new_identifier_ast AST_IDENT_EXPR [112]); (new_identifier_ast AST_IDENT_EXPR [113])]) (Some [(fun t => sym_define_memory t [112] (DTYPE_POINTER DTYPE_CHAR)); (fun t => sym_define_memory t [113] (DTYPE_POINTER DTYPE_INT))]) None.
Example test_resolve_equal_expr_error_incompatible_pointer_ok : errs test_resolve_equal_expr_error_incompatible_pointer = true. Proof. vm_compute. reflexivity. Qed.
(** tests/resolver/test_expression_error.c test_resolve_equal_expr_error_lhs *)
Definition test_resolve_equal_expr_error_lhs := expr_test (new_ast AST_EQUAL_EXPR [(new_identifier_ast AST_IDENT_EXPR [120]); (new_identifier_ast AST_IDENT_EXPR [121])]) None None.
Example test_resolve_equal_expr_error_lhs_ok : errs test_resolve_equal_expr_error_lhs = true. Proof. vm_compute. reflexivity. Qed.
(** tests/resolver/test_expression_error.c test_resolve_equal_expr_error_rhs *)
Definition test_resolve_equal_expr_error_rhs := expr_test (new_ast AST_EQUAL_EXPR [(new_identifier_ast AST_IDENT_EXPR [120]); (new_identifier_ast AST_IDENT_EXPR [121])]) (Some [(fun t => sym_define_memory t [120] DTYPE_INT)]) None.
Example test_resolve_equal_expr_error_rhs_ok : errs test_resolve_equal_expr_error_rhs = true. Proof. vm_compute. reflexivity. Qed.
(** tests/resolver/test_expression_error.c test_resolve_not_equal_expr_error_operand_dtype *)
Definition test_resolve_not_equal_expr_error_operand_dtype := expr_test (new_ast AST_NEQUAL_EXPR [(new_identifier_ast AST_IDENT_EXPR [120]); (new_identifier_ast AST_IDENT_EXPR [121])]) (Some [(fun t => sym_define_memory t [120] DTYPE_INT); (fun t => sym_define_memory t [121] (DTYPE_POINTER DTYPE_INT))]) None.
Example test_resolve_not_equal_expr_error_operand_dtype_ok : errs test_resolve_not_equal_expr_error_operand_dtype = true. Proof. vm_compute. reflexivity. Qed.
(** tests/resolver/test_expression_error.c test_resolve_not_equal_expr_error_incompatible_pointer *)
Definition test_resolve_not_equal_expr_error_incompatible_pointer := expr_test (new_ast AST_NEQUAL_EXPR [(new_identifier_ast AST_IDENT_EXPR [112]); (new_identifier_ast AST_IDENT_EXPR [113])]) (Some [(fun t => sym_define_memory t [112] (DTYPE_POINTER DTYPE_INT)); (fun t => sym_define_memory t [113] (DTYPE_POINTER DTYPE_CHAR))]) None.
Example test_resolve_not_equal_expr_error_incompatible_pointer_ok : errs test_resolve_not_equal_expr_error_incompatible_pointer = true. Proof. vm_compute. reflexivity. Qed.
(** tests/resolver/test_expression_error.c test_resolve_not_equal_expr_error_lhs *)
Definition test_resolve_not_equal_expr_error_lhs := expr_test (new_ast AST_NEQUAL_EXPR [(new_identifier_ast AST_IDENT_EXPR [120]); (new_identifier_ast AST_IDENT_EXPR [121])]) None None.
Example test_resolve_not_equal_expr_error_lhs_ok : errs test_resolve_not_equal_expr_error_lhs = true. Proof. vm_compute. reflexivity. Qed.
(** tests/resolver/test_expression_error.c test_resolve_not_equal_expr_error_rhs *)
Definition test_resolve_not_equal_expr_error_rhs := expr_test (new_ast AST_NEQUAL_EXPR [(new_identifier_ast AST_IDENT_EXPR [120]); (new_identifier_ast AST_IDENT_EXPR [121])]) (Some [(fun t => sym_define_memory t [120] DTYPE_INT)]) None.
Example test_resolve_not_equal_expr_error_rhs_ok : errs test_resolve_not_equal_expr_error_rhs = true. Proof. vm_compute. reflexivity. Qed.
(** tests/resolver/test_expression_error.c test_resolve_less_expr_error_operand_dtype *)
Definition test_resolve_less_expr_error_operand_dtype := expr_test (new_ast AST_LESS_EXPR [(new_identifier_ast AST_IDENT_EXPR [112]); (new_identifier_ast AST_IDENT_EXPR [113])]) (Some [(fun t => sym_define_memory t [112] (DTYPE_POINTER DTYPE_CHAR)); (fun t => sym_define_memory t [113] DTYPE_UNSIGNED_INT)]) None.
Example test_resolve_less_expr_error_operand_dtype_ok : errs test_resolve_less_expr_error_operand_dtype = true. Proof. vm_compute. reflexivity. Qed.
(** tests/resolver/test_expression_error.c test_resolve_less_expr_error_incompatible_pointer *)
Definition test_resolve_less_expr_error_incompatible_pointer := expr_test (new_ast AST_LESS_EXPR [(new_identifier_ast AST_IDENT_EXPR [112]); (new_identifier_ast AST_IDENT_EXPR [113])]) (Some [(fun t => sym_define_memory t [112] (DTYPE_POINTER DTYPE_UNSIGNED_INT)); (fun t => sym_define_memory t [113] (DTYPE_POINTER DTYPE_CHAR))]) None.
Example test_resolve_less_expr_error_incompatible_pointer_ok : errs test_resolve_less_expr_error_incompatible_pointer = true. Proof. vm_compute. reflexivity. Qed.
(** tests/resolver/test_expression_error.c test_resolve_less_expr_error_lhs *)
Definition test_resolve_less_expr_error_lhs := expr_test (new_ast AST_LESS_EXPR [(new_identifier_ast AST_IDENT_EXPR [120]); (new_identifier_ast AST_IDENT_EXPR [121])]) None None.
Example test_resolve_less_expr_error_lhs_ok : errs test_resolve_less_expr_error_lhs = true. Proof. vm_compute. reflexivity. Qed.
(** tests/resolver/test_expression_error.c test_resolve_less_expr_error_rhs *)
Definition test_resolve_less_expr_error_rhs := expr_test (new_ast AST_LESS_EXPR [(new_identifier_ast AST_IDENT_EXPR [120]); (new_identifier_ast AST_IDENT_EXPR [121])]) (Some [(fun t => sym_define_memory t [120] DTYPE_UNSIGNED_INT)]) None.
Example test_resolve_less_expr_error_rhs_ok : errs test_resolve_less_expr_error_rhs = true. Proof. vm_compute. reflexivity. Qed.
(** tests/resolver/test_expression_error.c test_resolve_greater_expr_error_operand_dtype *)
Definition test_resolve_greater_expr_error_operand_dtype := expr_test (new_ast AST_GREATER_EXPR [(new_identifier_ast AST_IDENT_EXPR [112]); (new_identifier_ast AST_IDENT_EXPR [113])]) (Some [(fun t => sym_define_memory t [112] (DTYPE_POINTER DTYPE_CHAR)); (fun t => sym_define_memory t [113] DTYPE_UNSIGNED_INT)]) None.
Example test_resolve_greater_expr_error_operand_dtype_ok : errs test_resolve_greater_expr_error_operand_dtype = true. Proof. vm_compute. reflexivity. Qed.
(** tests/resolver/test_expression_error.c test_resolve_greater_expr_error_incompatible_pointer *)
Definition test_resolve_greater_expr_error_incompatible_pointer := expr_test (new_ast AST_GREATER_EXPR [(new_identifier_ast AST_IDENT_EXPR [112]); (new_identifier_ast AST_IDENT_EXPR [113])]) (Some [(fun t => sym_define_memory t [112] (DTYPE_POINTER DTYPE_UNSIGNED_INT)); (fun t => sym_define_memory t [113] (DTYPE_POINTER DTYPE_CHAR))]) None.
Example test_resolve_greater_expr_error_incompatible_pointer_ok : errs test_resolve_greater_expr_error_incompatible_pointer = true. Proof. vm_compute. reflexivity. Qed.
(** tests/resolver/test_expression_error.c test_resolve_greater_expr_error_lhs *)
Definition test_resolve_greater_expr_error_lhs := expr_test (new_ast AST_GREATER_EXPR [(new_identifier_ast AST_IDENT_EXPR [120]); (new_identifier_ast AST_IDENT_EXPR [121])]) None None.
Example test_resolve_greater_expr_error_lhs_ok : errs test_resolve_greater_expr_error_lhs = true. Proof. vm_compute. reflexivity. Qed.
(** tests/resolver/test_expression_error.c test_resolve_greater_expr_error_rhs *)
Definition test_resolve_greater_expr_error_rhs := expr_test (new_ast AST_GREATER_EXPR [(new_identifier_ast AST_IDENT_EXPR [120]); (new_identifier_ast AST_IDENT_EXPR [121])]) (Some [(fun t => sym_define_memory t [120] DTYPE_UNSIGNED_INT)]) None.
Example test_resolve_greater_expr_error_rhs_ok : errs test_resolve_greater_expr_error_rhs = true. Proof. vm_compute. reflexivity. Qed.
(** tests/resolver/test_expression_error.c test_resolve_less_equal_expr_error_operand_dtype *)
Definition test_resolve_less_equal_expr_error_operand_dtype := expr_test (new_ast AST_LESSEQ_EXPR [(new_identifier_ast AST_IDENT_EXPR [112]); (new_identifier_ast AST_IDENT_EXPR [113])]) (Some [(fun t => sym_define_memory t [112] (DTYPE_POINTER DTYPE_CHAR)); (fun t => sym_define_memory t [113] DTYPE_UNSIGNED_INT)]) None.
Example test_resolve_less_equal_expr_error_operand_dtype_ok : errs test_resolve_less_equal_expr_error_operand_dtype = true. Proof. vm_compute. reflexivity. Qed.
(** tests/resolver/test_expression_error.c test_resolve_less_equal_expr_error_incompatible_pointer *)
Definition test_resolve_less_equal_expr_error_incompatible_pointer := expr_test (new_ast AST_LESSEQ_EXPR [(new_identifier_ast AST_IDENT_EXPR [112]); (new_identifier_ast AST_IDENT_EXPR [113])]) (Some [(fun t => sym_define_memory t [112] (DTYPE_POINTER DTYPE_UNSIGNED_INT)); (fun t => sym_define_memory t [113] (DTYPE_POINTER DTYPE_CHAR))]) None.
Example test_resolve_less_equal_expr_error_incompatible_pointer_ok : errs test_resolve_less_equal_expr_error_incompatible_pointer = true. Proof. vm_compute. reflexivity. Qed.
(** tests/resolver/test_expression_error.c test_resolve_less_equal_expr_error_lhs *)
Definition test_resolve_less_equal_expr_error_lhs := expr_test (new_ast AST_LESSEQ_EXPR [(new_identifier_ast AST_IDENT_EXPR [120]); (new_identifier_ast AST_IDENT_EXPR [121])]) None None.
Example test_resolve_less_equal_expr_error_lhs_ok : errs test_resolve_less_equal_expr_error_lhs = true. Proof. vm_compute. reflexivity. Qed.
(** tests/resolver/test_expression_error.c test_resolve_less_equal_expr_error_rhs *)
Definition test_resolve_less_equal_expr_error_rhs := expr_test (new_ast AST_LESSEQ_EXPR [(new_identifier_ast AST_IDENT_EXPR [120]); (new_identifier_ast AST_IDENT_EXPR [121])]) (Some [(fun t => sym_define_memory t [120] DTYPE_UNSIGNED_INT)]) None.
Example test_resolve_less_equal_expr_error_rhs_ok : errs test_resolve_less_equal_expr_error_rhs = true. Proof. vm_compute. reflexivity. Qed.
(** tests/resolver/test_expression_error.c test_resolve_greater_equal_expr_error_operand_dtype *)
Definition test_resolve_greater_equal_expr_error_operand_dtype := expr_test (new_ast AST_GREATEREQ_EXPR [(new_identifier_ast AST_IDENT_EXPR [112]); (new_identifier_ast AST_IDENT_EXPR [113])]) (Some [(fun t => sym_define_memory t [112] (DTYPE_POINTER DTYPE_CHAR)); (fun t => sym_define_memory t [113] DTYPE_UNSIGNED_INT)]) None.
Example test_resolve_greater_equal_expr_error_operand_dtype_ok : errs test_resolve_greater_equal_expr_error_operand_dtype = true. Proof. vm_compute. reflexivity. Qed.
(** tests/resolver/test_expression_error.c test_resolve_greater_equal_expr_error_incompatible_pointer *)
Definition test_resolve_greater_equal_expr_error_incompatible_pointer := expr_test (new_ast AST_GREATEREQ_EXPR [(new_identifier_ast AST_IDENT_EXPR [112]); (new_identifier_ast AST_IDENT_EXPR [113])]) (Some [(fun t => sym_define_memory t [112] (DTYPE_POINTER DTYPE_UNSIGNED_INT)); (fun t => sym_define_memory t [113] (DTYPE_POINTER DTYPE_CHAR))]) None.
Example test_resolve_greater_equal_expr_error_incompatible_pointer_ok : errs test_resolve_greater_equal_expr_error_incompatible_pointer = true. Proof. vm_compute. reflexivity. Qed.
(** tests/resolver/test_expression_error.c test_resolve_greater_equal_expr_error_lhs *)
Definition test_resolve_greater_equal_expr_error_lhs := expr_test (new_ast AST_GREATEREQ_EXPR [(new_identifier_ast AST_IDENT_EXPR [120]); (new_identifier_ast AST_IDENT_EXPR [121])]) None None.
Example test_resolve_greater_equal_expr_error_lhs_ok : errs test_resolve_greater_equal_expr_error_lhs = true. Proof. vm_compute. reflexivity. Qed.
(** tests/resolver/test_expression_error.c test_resolve_greater_equal_expr_error_rhs *)
Definition test_resolve_greater_equal_expr_error_rhs := expr_test (new_ast AST_GREATEREQ_EXPR [(new_identifier_ast AST_IDENT_EXPR [120]); (new_identifier_ast AST_IDENT_EXPR [121])]) (Some [(fun t => sym_define_memory t [120] DTYPE_UNSIGNED_INT)]) None.
Example test_resolve_greater_equal_expr_error_rhs_ok : errs test_resolve_greater_equal_expr_error_rhs = true. Proof. vm_compute. reflexivity. Qed.
(** tests/resolver/test_expression_error.c test_resolve_lshift_expr_error_non_integer *)
Definition test_resolve_lshift_expr_error_non_integer := expr_test (new_ast AST_LSHIFT_EXPR [(new_identifier_ast AST_IDENT_EXPR [112]); (new_identifier_ast AST_IDENT_EXPR [120])]) (Some [(fun t => sym_define_memory t [112] (DTYPE_POINTER DTYPE_CHAR)); (fun t => sym_define_memory t [120] DTYPE_INT)]) None.
Example test_resolve_lshift_expr_error_non_integer_ok : errs test_resolve_lshift_expr_error_non_integer = true. Proof. vm_compute. reflexivity. Qed.
(** tests/resolver/test_expression_error.c test_resolve_lshift_expr_error_lhs *)
Definition test_resolve_lshift_expr_error_lhs := expr_test (new_ast AST_LSHIFT_EXPR [(new_identifier_ast AST_IDENT_EXPR [120]); (new_identifier_ast AST_IDENT_EXPR [121])]) (Some [(fun t => sym_define_memory t [121] DTYPE_INT)]) None.
Example test_resolve_lshift_expr_error_lhs_ok : errs test_resolve_lshift_expr_error_lhs = true. Proof. vm_compute. reflexivity. Qed.
(** tests/resolver/test_expression_error.c test_resolve_lshift_expr_error_rhs *)
Definition test_resolve_lshift_expr_error_rhs := expr_test (new_ast AST_LSHIFT_EXPR [(new_identifier_ast AST_IDENT_EXPR [120]); (new_identifier_ast AST_IDENT_EXPR [121])]) (Some [(fun t => sym_define_memory t [120] DTYPE_INT)]) None.
Example test_resolve_lshift_expr_error_rhs_ok : errs test_resolve_lshift_expr_error_rhs = true. Proof. vm_compute. reflexivity. Qed.
(** tests/resolver/test_expression_error.c test_resolve_rshift_expr_error_non_integer *)
Definition test_resolve_rshift_expr_error_non_integer := expr_test (new_ast AST_RSHIFT_EXPR [(new_iliteral_ast AST_INT_EXPR (new_signed IInt 1024)); (new_identifier_ast AST_IDENT_EXPR [113])]) (Some [(fun t => sym_define_memory t [113] (DTYPE_POINTER DTYPE_INT))]) None.
Example test_resolve_rshift_expr_error_non_integer_ok : errs test_resolve_rshift_expr_error_non_integer = true. Proof. vm_compute. reflexivity. Qed.
(** tests/resolver/test_expression_error.c test_resolve_rshift_expr_error_lhs *)
Definition test_resolve_rshift_expr_error_lhs := expr_test (new_ast AST_RSHIFT_EXPR [(new_identifier_ast AST_IDENT_EXPR [120]); (new_identifier_ast AST_IDENT_EXPR [121])]) (Some [(fun t => sym_define_memory t [121] DTYPE_INT)]) None.
Example test_resolve_rshift_expr_error_lhs_ok : errs test_resolve_rshift_expr_error_lhs = true. Proof. vm_compute. reflexivity. Qed.
(** tests/resolver/test_expression_error.c test_resolve_rshift_expr_error_rhs *)
Definition test_resolve_rshift_expr_error_rhs := expr_test (new_ast AST_RSHIFT_EXPR [(new_identifier_ast AST_IDENT_EXPR [120]); (new_identifier_ast AST_IDENT_EXPR [121])]) (Some [(fun t => sym_define_memory t [120] DTYPE_INT)]) None.
Example test_resolve_rshift_expr_error_rhs_ok : errs test_resolve_rshift_expr_error_rhs = true. Proof. vm_compute. reflexivity. Qed.
(** tests/resolver/test_expression_error.c test_resolve_add_expr_error_operand_dtype *)
Definition test_resolve_add_expr_error_operand_dtype := expr_test (new_ast AST_ADD_EXPR [(new_identifier_ast AST_IDENT_EXPR [112]); (new_identifier_ast AST_IDENT_EXPR [113])]) (Some [(fun t => sym_define_memory t [112] (DTYPE_POINTER DTYPE_CHAR)); (fun t => sym_define_memory t [113] (DTYPE_POINTER DTYPE_INT))]) None.
Example test_resolve_add_expr_error_operand_dtype_ok : errs test_resolve_add_expr_error_operand_dtype = true. Proof. vm_compute. reflexivity. Qed.
(** tests/resolver/test_expression_error.c test_resolve_add_expr_error_lhs *)
Definition test_resolve_add_expr_error_lhs := expr_test (new_ast AST_ADD_EXPR [(new_identifier_ast AST_IDENT_EXPR [120]); (new_identifier_ast AST_IDENT_EXPR [121])]) None None.
Example test_resolve_add_expr_error_lhs_ok : errs test_resolve_add_expr_error_lhs = true. Proof. vm_compute. reflexivity. Qed.
(** tests/resolver/test_expression_error.c test_resolve_add_expr_error_rhs *)
Definition test_resolve_add_expr_error_rhs := expr_test (new_ast AST_ADD_EXPR [(new_identifier_ast AST_IDENT_EXPR [120]); (new_identifier_ast AST_IDENT_EXPR [121])]) (Some [(fun t => sym_define_memory t [120] DTYPE_INT)]) None.
Example test_resolve_add_expr_error_rhs_ok : errs test_resolve_add_expr_error_rhs = true. Proof. vm_compute. reflexivity. Qed.
(** tests/resolver/test_expression_error.c test_resolve_subtract_expr_error_operand_dtype *)
Definition test_resolve_subtract_expr_error_operand_dtype := expr_test (new_ast AST_SUB_EXPR [(new_iliteral_ast AST_INT_EXPR (new_signed IInt 1)); (new_identifier_ast AST_IDENT_EXPR [112; 116; 114])]) (Some [(fun t => sym_define_memory t [112; 116; 114] (DTYPE_POINTER DTYPE_INT))]) None.
Example test_resolve_subtract_expr_error_operand_dtype_ok : errs test_resolve_subtract_expr_error_operand_dtype = true. Proof. vm_compute. reflexivity. Qed.
(** tests/resolver/test_expression_error.c test_resolve_subtract_expr_error_incompatible_pointer *)
Definition test_resolve_subtract_expr_error_incompatible_pointer := expr_test (new_ast AST_SUB_EXPR [(new_identifier_ast AST_IDENT_EXPR [112]); (new_identifier_ast AST_IDENT_EXPR [113])]) (Some [(fun t => sym_define_memory t [112] (DTYPE_POINTER DTYPE_CHAR)); (fun t => sym_define_memory t [113] (DTYPE_POINTER DTYPE_INT))]) None.
Example test_resolve_subtract_expr_error_incompatible_pointer_ok : errs test_resolve_subtract_expr_error_incompatible_pointer = true. Proof. vm_compute. reflexivity. Qed.
(** tests/resolver/test_expression_error.c test_resolve_subtract_expr_error_lhs *)
Definition test_resolve_subtract_expr_error_lhs := expr_test (new_ast AST_SUB_EXPR [(new_identifier_ast AST_IDENT_EXPR [120]); (new_identifier_ast AST_IDENT_EXPR [121])]) None None.
Example test_resolve_subtract_expr_error_lhs_ok : errs test_resolve_subtract_expr_error_lhs = true. Proof. vm_compute. reflexivity. Qed.
(** tests/resolver/test_expression_error.c test_resolve_subtract_expr_error_rhs *)
Definition test_resolve_subtract_expr_error_rhs := expr_test (new_ast AST_SUB_EXPR [(new_identifier_ast AST_IDENT_EXPR [120]); (new_identifier_ast AST_IDENT_EXPR [121])]) (Some [(fun t => sym_define_memory t [120] DTYPE_INT)]) None.
Example test_resolve_subtract_expr_error_rhs_ok : errs test_resolve_subtract_expr_error_rhs = true. Proof. vm_compute. reflexivity. Qed.
(** tests/resolver/test_expression_error.c test_resolve_multiply_expr_error_non_arithmetic *)
Definition test_resolve_multiply_expr_error_non_arithmetic := expr_test (new_ast AST_MUL_EXPR [(new_iliteral_ast AST_INT_EXPR (new_signed IInt 5)); (new_identifier_ast AST_IDENT_EXPR [118; 97; 108; 117; 101])]) (Some [(fun t => sym_define_memory t [118; 97; 108; 117; 101] (DTYPE_POINTER DTYPE_INT))]) None.
Example test_resolve_multiply_expr_error_non_arithmetic_ok : errs test_resolve_multiply_expr_error_non_arithmetic = true. Proof. vm_compute. reflexivity. Qed.
(** tests/resolver/test_expression_error.c test_resolve_multiply_expr_error_lhs *)
Definition test_resolve_multiply_expr_error_lhs := expr_test (new_ast AST_MUL_EXPR [(new_identifier_ast AST_IDENT_EXPR [120]); (new_identifier_ast AST_IDENT_EXPR [121])]) None None.
Example test_resolve_multiply_expr_error_lhs_ok : errs test_resolve_multiply_expr_error_lhs = true. Proof. vm_compute. reflexivity. Qed.
(** tests/resolver/test_expression_error.c test_resolve_multiply_expr_error_rhs *)
Definition test_resolve_multiply_expr_error_rhs := expr_test (new_ast AST_MUL_EXPR [(new_identifier_ast AST_IDENT_EXPR [120]); (new_identifier_ast AST_IDENT_EXPR [121])]) (Some [(fun t => sym_define_memory t [120] DTYPE_INT)]) None.
Example test_resolve_multiply_expr_error_rhs_ok : errs test_resolve_multiply_expr_error_rhs = true. Proof. vm_compute. reflexivity. Qed.
(** tests/resolver/test_expression_error.c test_resolve_division_expr_error_non_arithmetic *)
Definition test_resolve_division_expr_error_non_arithmetic := expr_test (new_ast AST_DIV_EXPR [(new_identifier_ast AST_IDENT_EXPR [118; 97; 108; 117; 101]); (new_iliteral_ast AST_INT_EXPR (new_signed IInt 3))]) (Some [(fun t => sym_define_memory t [118; 97; 108; 117; 101] (DTYPE_POINTER DTYPE_INT))]) None.
Example test_resolve_division_expr_error_non_arithmetic_ok : errs test_resolve_division_expr_error_non_arithmetic = true. Proof. vm_compute. reflexivity. Qed.
(** tests/resolver/test_expression_error.c test_resolve_division_expr_error_lhs *)
Definition test_resolve_division_expr_error_lhs := expr_test (new_ast AST_DIV_EXPR [(new_identifier_ast AST_IDENT_EXPR [120]); (new_identifier_ast AST_IDENT_EXPR [121])]) None None.
Example test_resolve_division_expr_error_lhs_ok : errs test_resolve_division_expr_error_lhs = true. Proof. vm_compute. reflexivity. Qed.
(** tests/resolver/test_expression_error.c test_resolve_division_expr_error_rhs *)
Definition test_resolve_division_expr_error_rhs := expr_test (new_ast AST_DIV_EXPR [(new_identifier_ast AST_IDENT_EXPR [120]); (new_identifier_ast AST_IDENT_EXPR [121])]) (Some [(fun t => sym_define_memory t [120] DTYPE_INT)]) None.
Example test_resolve_division_expr_error_rhs_ok : errs test_resolve_division_expr_error_rhs = true. Proof. vm_compute. reflexivity. Qed.
(** tests/resolver/test_expression_error.c test_resolve_modulo_expr_error_non_integer *)
Definition test_resolve_modulo_expr_error_non_integer := expr_test (new_ast AST_MOD_EXPR [(new_iliteral_ast AST_INT_EXPR (new_signed IInt 5)); (new_identifier_ast AST_IDENT_EXPR [118; 97; 108; 117; 101])]) (Some [(fun t => sym_define_memory t [118; 97; 108; 117; 101] (DTYPE_POINTER DTYPE_INT))]) None.
Example test_resolve_modulo_expr_error_non_integer_ok : errs test_resolve_modulo_expr_error_non_integer = true. Proof. vm_compute. reflexivity. Qed.
(** tests/resolver/test_expression_error.c test_resolve_modulo_expr_error_lhs *)
Definition test_resolve_modulo_expr_error_lhs := expr_test (new_ast AST_MOD_EXPR [(new_identifier_ast AST_IDENT_EXPR [120]); (new_identifier_ast AST_IDENT_EXPR [121])]) None None.
Example test_resolve_modulo_expr_error_lhs_ok : errs test_resolve_modulo_expr_error_lhs = true. Proof. vm_compute. reflexivity. Qed.
(** tests/resolver/test_expression_error.c test_resolve_modulo_expr_error_rhs *)
Definition test_resolve_modulo_expr_error_rhs := expr_test (new_ast AST_MOD_EXPR [(new_identifier_ast AST_IDENT_EXPR [120]); (new_identifier_ast AST_IDENT_EXPR [121])]) (Some [(fun t => sym_define_memory t [120] DTYPE_INT)]) None.
Example test_resolve_modulo_expr_error_rhs_ok : errs test_resolve_modulo_expr_error_rhs = true. Proof. vm_compute. reflexivity. Qed.
(** tests/resolver/test_expression_error.c test_resolve_cast_expr_error_type_name *)
Definition test_resolve_cast_expr_error_type_name := expr_test (new_ast AST_CAST_EXPR [(new_ast AST_TYPE_NAME [(new_ast AST_SPEC_QUAL_LIST [(new_ast AST_TYPE_INT [])]); (new_ast AST_PTR_DECLOR [(new_ast AST_FUNC_DECLOR [(new_ast AST_ABS_DECLOR []); (new_ast AST_PARAM_LIST [(new_ast AST_PARAM_DECL [(new_ast AST_DECL_SPECS [(new_ast AST_TYPE_VOID [])]); (new_identifier_ast AST_IDENT_DECLOR [120])])])])])]); (new_identifier_ast AST_IDENT_EXPR [102])]) (Some [(fun t => sym_define_memory t [102] DTYPE_CHAR)]) None.
Example test_resolve_cast_expr_error_type_name_ok : errs test_resolve_cast_expr_error_type_name = true. Proof. vm_compute. reflexivity. Qed.
(** tests/resolver/test_expression_error.c test_resolve_cast_expr_error_child *)
Definition test_resolve_cast_expr_error_child := expr_test (new_ast AST_CAST_EXPR [(new_ast AST_TYPE_NAME [(new_ast AST_SPEC_QUAL_LIST [(new_ast AST_TYPE_INT [])]); (new_ast AST_ABS_DECLOR [])]); (new_identifier_ast AST_IDENT_EXPR [120])]) None None.
Example test_resolve_cast_expr_error_child_ok : errs test_resolve_cast_expr_error_child = true. Proof. vm_compute. reflexivity. Qed.
(** tests/resolver/test_expression_error.c test_resolve_cast_expr_error_non_scalar *)
Definition test_resolve_cast_expr_error_non_scalar := expr_test (new_ast AST_CAST_EXPR [(new_ast AST_TYPE_NAME [(new_ast AST_SPEC_QUAL_LIST [(new_ast AST_TYPE_INT [])]); (new_ast AST_FUNC_DECLOR [(new_ast AST_ABS_DECLOR []); (new_ast AST_PARAM_LIST [(new_ast AST_PARAM_DECL [(new_ast AST_DECL_SPECS [(new_ast AST_TYPE_VOID [])]); (new_ast AST_ABS_DECLOR [])])])])]); (new_identifier_ast AST_IDENT_EXPR [102])]) (Some [(fun t => sym_define_memory t [102] DTYPE_CHAR)]) None.
Example test_resolve_cast_expr_error_non_scalar_ok : errs test_resolve_cast_expr_error_non_scalar = true. Proof. vm_compute. reflexivity. Qed.
(** tests/resolver/test_expression_error.c test_resolve_preinc_expr_error_unmodifiable *)
Definition test_resolve_preinc_expr_error_unmodifiable := expr_test (new_ast AST_PREINC_EXPR [(new_iliteral_ast AST_INT_EXPR (new_signed IInt 3))]) None None.
Example test_resolve_preinc_expr_error_unmodifiable_ok : errs test_resolve_preinc_expr_error_unmodifiable = true. Proof. vm_compute. reflexivity. Qed.
(** tests/resolver/test_expression_error.c test_resolve_preinc_expr_error_child *)
Definition test_resolve_preinc_expr_error_child := expr_test (new_ast AST_PREINC_EXPR [(new_identifier_ast AST_IDENT_EXPR [120])]) None None.
Example test_resolve_preinc_expr_error_child_ok : errs test_resolve_preinc_expr_error_child = true. Proof. vm_compute. reflexivity. Qed.
(** tests/resolver/test_expression_error.c test_resolve_preinc_expr_error_operand_dtype *)
Definition test_resolve_preinc_expr_error_operand_dtype := expr_test (new_ast AST_PREINC_EXPR [(new_identifier_ast AST_IDENT_EXPR [105])]) (Some [(fun t => sym_define_memory t [105] (ust [([109; 101; 109; 98; 101; 114], DTYPE_INT)]))]) None.
Example test_resolve_preinc_expr_error_operand_dtype_ok : errs test_resolve_preinc_expr_error_operand_dtype = true. Proof. vm_compute. reflexivity. Qed.
(** tests/resolver/test_expression_error.c test_resolve_predec_expr_error_unmodifiable *)
Definition test_resolve_predec_expr_error_unmodifiable := expr_test (new_ast AST_PREDEC_EXPR [(new_identifier_ast AST_IDENT_EXPR [98])]) (Some [(fun t => sym_define_memory t [98] (DTYPE_ARRAY DTYPE_INT 5))]) None.
Example test_resolve_predec_expr_error_unmodifiable_ok : errs test_resolve_predec_expr_error_unmodifiable = true. Proof. vm_compute. reflexivity. Qed.
(** tests/resolver/test_expression_error.c test_resolve_predec_expr_error_operand_dtype *)
Definition test_resolve_predec_expr_error_operand_dtype := expr_test (new_ast AST_PREDEC_EXPR [(new_identifier_ast AST_IDENT_EXPR [106])]) (Some [(fun t => sym_define_memory t [106] (ust [([109; 101; 109; 98; 101; 114], DTYPE_INT)]))]) None.
Example test_resolve_predec_expr_error_operand_dtype_ok : errs test_resolve_predec_expr_error_operand_dtype = true. Proof. vm_compute. reflexivity. Qed.
(** tests/resolver/test_expression_error.c test_resolve_predec_expr_error_child *)
Definition test_resolve_predec_expr_error_child := expr_test (new_ast AST_PREDEC_EXPR [(new_identifier_ast AST_IDENT_EXPR [120])]) None None.
Example test_resolve_predec_expr_error_child_ok : errs test_resolve_predec_expr_error_child = true. Proof. vm_compute. reflexivity. Qed.
(** tests/resolver/test_expression_error.c test_resolve_address_expr_error_operand_dtype *)
Definition test_resolve_address_expr_error_operand_dtype := expr_test (new_ast AST_ADDR_EXPR [(new_iliteral_ast AST_INT_EXPR (new_signed IInt 6))]) None None.
Example test_resolve_address_expr_error_operand_dtype_ok : errs test_resolve_address_expr_error_operand_dtype = true. Proof. vm_compute. reflexivity. Qed.
(** tests/resolver/test_expression_error.c test_resolve_address_expr_error_child *)
Definition test_resolve_address_expr_error_child := expr_test (new_ast AST_ADDR_EXPR [(new_identifier_ast AST_IDENT_EXPR [118; 97; 108; 117; 101])]) None None.
Example test_resolve_address_expr_error_child_ok : errs test_resolve_address_expr_error_child = true. Proof. vm_compute. reflexivity. Qed.
(** tests/resolver/test_expression_error.c test_resolve_indirection_expr_error_non_pointer *)
Definition test_resolve_indirection_expr_error_non_pointer := expr_test (new_ast AST_INDIR_EXPR [(new_identifier_ast AST_IDENT_EXPR [112])]) (Some [(fun t => sym_define_memory t [112] DTYPE_INT)]) None.
Example test_resolve_indirection_expr_error_non_pointer_ok : errs test_resolve_indirection_expr_error_non_pointer = true. Proof. vm_compute. reflexivity. Qed.
(** tests/resolver/test_expression_error.c test_resolve_indirection_expr_error_child *)
Definition test_resolve_indirection_expr_error_child := expr_test (new_ast AST_INDIR_EXPR [(new_identifier_ast AST_IDENT_EXPR [112])]) None None.
Example test_resolve_indirection_expr_error_child_ok : errs test_resolve_indirection_expr_error_child = true. Proof. vm_compute. reflexivity. Qed.
(** tests/resolver/test_expression_error.c test_resolve_logical_not_expr_error_non_scalar *)
Definition test_resolve_logical_not_expr_error_non_scalar := expr_test (new_ast AST_LNOT_EXPR [(new_identifier_ast AST_IDENT_EXPR [115; 116; 114; 117; 99; 116; 117; 114; 101])]) (Some [(fun t => sym_define_memory t [115; 116; 114; 117; 99; 116; 117; 114; 101] (ust [([109; 101; 109; 98; 101; 114], DTYPE_INT)]))]) None.
Example test_resolve_logical_not_expr_error_non_scalar_ok : errs test_resolve_logical_not_expr_error_non_scalar = true. Proof. vm_compute. reflexivity. Qed.
(** tests/resolver/test_expression_error.c test_resolve_logical_not_expr_error_child *)
Definition test_resolve_logical_not_expr_error_child := expr_test (new_ast AST_LNOT_EXPR [(new_ast AST_LNOT_EXPR [(new_identifier_ast AST_IDENT_EXPR [102; 108; 97; 103])])]) None None.
Example test_resolve_logical_not_expr_error_child_ok : errs test_resolve_logical_not_expr_error_child = true. Proof. vm_compute. reflexivity. Qed.
(** tests/resolver/test_expression_error.c test_resolve_positive_expr_error_non_arithmetic *)
Definition test_resolve_positive_expr_error_non_arithmetic := expr_test (new_ast AST_POS_EXPR [(new_identifier_ast AST_IDENT_EXPR [120])]) (Some [(fun t => sym_define_memory t [120] (DTYPE_POINTER DTYPE_INT))]) None.
Example test_resolve_positive_expr_error_non_arithmetic_ok : errs test_resolve_positive_expr_error_non_arithmetic = true. Proof. vm_compute. reflexivity. Qed.
(** tests/resolver/test_expression_error.c test_resolve_positive_expr_error_child *)
Definition test_resolve_positive_expr_error_child := expr_test (new_ast AST_POS_EXPR [(new_identifier_ast AST_IDENT_EXPR [120])]) None None.
Example test_resolve_positive_expr_error_child_ok : errs test_resolve_positive_expr_error_child = true. Proof. vm_compute. reflexivity. Qed.
(** tests/resolver/test_expression_error.c test_resolve_negative_expr_error_non_arithmetic *)
Definition test_resolve_negative_expr_error_non_arithmetic := expr_test (new_ast AST_NEG_EXPR [(new_identifier_ast AST_IDENT_EXPR [120])]) (Some [(fun t => sym_define_memory t [120] (DTYPE_POINTER DTYPE_INT))]) None.
Example test_resolve_negative_expr_error_non_arithmetic_ok : errs test_resolve_negative_expr_error_non_arithmetic = true. Proof. vm_compute. reflexivity. Qed.
(** tests/resolver/test_expression_error.c test_resolve_negative_expr_error_child *)
Definition test_resolve_negative_expr_error_child := expr_test (new_ast AST_NEG_EXPR [(new_identifier_ast AST_IDENT_EXPR [120])]) None None.
Example test_resolve_negative_expr_error_child_ok : errs test_resolve_negative_expr_error_child = true. Proof. vm_compute. reflexivity. Qed.
(** tests/resolver/test_expression_error.c test_resolve_bitwise_not_expr_error_non_integer *)
Definition test_resolve_bitwise_not_expr_error_non_integer := expr_test (new_ast AST_NOT_EXPR [(new_identifier_ast AST_IDENT_EXPR [98; 105; 116; 102; 105; 101; 108; 100])]) (Some [(fun t => sym_define_memory t [98; 105; 116; 102; 105; 101; 108; 100] (DTYPE_POINTER DTYPE_INT))]) None.
Example test_resolve_bitwise_not_expr_error_non_integer_ok : errs test_resolve_bitwise_not_expr_error_non_integer = true. Proof. vm_compute. reflexivity. Qed.
(** tests/resolver/test_expression_error.c test_resolve_bitwise_not_expr_error_child *)
Definition test_resolve_bitwise_not_expr_error_child := expr_test (new_ast AST_NOT_EXPR [(new_identifier_ast AST_IDENT_EXPR [98; 105; 116; 102; 105; 101; 108; 100])]) None None.
Example test_resolve_bitwise_not_expr_error_child_ok : errs test_resolve_bitwise_not_expr_error_child = true. Proof. vm_compute. reflexivity. Qed.
(** tests/resolver/test_expression_error.c test_resolve_sizeof_expr_error_typename *)
Definition test_resolve_sizeof_expr_error_typename := expr_test (new_ast AST_SIZEOF_EXPR [(new_ast AST_TYPE_NAME [(new_ast AST_SPEC_QUAL_LIST [(new_ast AST_TYPE_CHAR []); (new_ast AST_TYPE_INT [])]); (new_ast AST_ABS_DECLOR [])])]) None None.
Example test_resolve_sizeof_expr_error_typename_ok : errs test_resolve_sizeof_expr_error_typename = true. Proof. vm_compute. reflexivity. Qed.
(** tests/resolver/test_expression_error.c test_resolve_sizeof_expr_error_expr *)
Definition test_resolve_sizeof_expr_error_expr := expr_test (new_ast AST_SIZEOF_EXPR [(new_identifier_ast AST_IDENT_EXPR [120])]) None None.
Example test_resolve_sizeof_expr_error_expr_ok : errs test_resolve_sizeof_expr_error_expr = true. Proof. vm_compute. reflexivity. Qed.
(** tests/resolver/test_expression_error.c test_resolve_sizeof_expr_error_incomplete *)
Definition test_resolve_sizeof_expr_error_incomplete := expr_test (new_ast AST_SIZEOF_EXPR [(new_ast AST_TYPE_NAME [(new_ast AST_SPEC_QUAL_LIST [(new_ast AST_TYPE_VOID [])]); (new_ast AST_ABS_DECLOR [])])]) None None.
Example test_resolve_sizeof_expr_error_incomplete_ok : errs test_resolve_sizeof_expr_error_incomplete = true. Proof. vm_compute. reflexivity. Qed.
(** tests/resolver/test_expression_error.c test_resolve_sizeof_expr_error_function *)
Definition test_resolve_sizeof_expr_error_function := expr_test (new_ast AST_SIZEOF_EXPR [(new_ast AST_TYPE_NAME [(new_ast AST_SPEC_QUAL_LIST [(new_ast AST_TYPE_INT [])]); (new_ast AST_FUNC_DECLOR [(new_ast AST_ABS_DECLOR []); (new_ast AST_PARAM_LIST [(new_ast AST_PARAM_DECL [(new_ast AST_DECL_SPECS [(new_ast AST_TYPE_VOID [])]); (new_ast AST_ABS_DECLOR [])])])])])]) None None.
Example test_resolve_sizeof_expr_error_function_ok : errs test_resolve_sizeof_expr_error_function = true. Proof. vm_compute. reflexivity. Qed.
(** tests/resolver/test_expression_error.c test_resolve_call_expr_error_non_func *)
Definition test_resolve_call_expr_error_non_func := expr_test (new_ast AST_CALL_EXPR [(new_identifier_ast AST_IDENT_EXPR [102; 117; 110; 99; 116; 105; 111; 110]); (new_ast AST_ARG_LIST [(new_identifier_ast AST_IDENT_EXPR [120]); (new_identifier_ast AST_IDENT_EXPR [121])])]) (Some [(fun t => sym_define_memory t [102; 117; 110; 99; 116; 105; 111; 110] (DTYPE_ARRAY DTYPE_INT 2)); (fun t => sym_define_memory t [120] DTYPE_CHAR); (fun t => sym_define_memory t [121] DTYPE_INT)]) None.
Example test_resolve_call_expr_error_non_func_ok : errs test_resolve_call_expr_error_non_func = true. Proof. vm_compute. reflexivity. Qed.
(** tests/resolver/test_expression_error.c test_resolve_call_expr_error_num_params *)
Definition test_resolve_call_expr_error_num_params := expr_test (new_ast AST_CALL_EXPR [(new_identifier_ast AST_IDENT_EXPR [102; 117; 110; 99; 116; 105; 111; 110]); (new_ast AST_ARG_LIST [(new_identifier_ast AST_IDENT_EXPR [120]); (new_identifier_ast AST_IDENT_EXPR [121])])]) (Some [(fun t => sym_define_label t [102; 117; 110; 99; 116; 105; 111; 110] (DTYPE_FUNCTION [(Some [120], DTYPE_INT)] DTYPE_INT)); (fun t => sym_define_memory t [120] DTYPE_CHAR); (fun t => sym_define_memory t [121] DTYPE_INT)]) None.
Example test_resolve_call_expr_error_num_params_ok : errs test_resolve_call_expr_error_num_params = true. Proof. vm_compute. reflexivity. Qed.
(** tests/resolver/test_expression_error.c test_resolve_call_expr_error_param_dtype *)
Definition test_resolve_call_expr_error_param_dtype := expr_test (new_ast AST_CALL_EXPR [(new_identifier_ast AST_IDENT_EXPR [102; 117; 110; 99; 116; 105; 111; 110]); (new_ast AST_ARG_LIST [(new_identifier_ast AST_IDENT_EXPR [120]); (new_identifier_ast AST_IDENT_EXPR [121]); (new_identifier_ast AST_IDENT_EXPR [122])])]) (Some [(fun t => sym_define_label t [102; 117; 110; 99; 116; 105; 111; 110] (DTYPE_FUNCTION [(Some [120], DTYPE_INT); (Some [121], DTYPE_CHAR); (Some [122], DTYPE_INT)] DTYPE_INT)); (fun t => sym_define_memory t [120] (DTYPE_POINTER DTYPE_INT)); (fun t => sym_define_memory t [121] (DTYPE_ARRAY DTYPE_INT 2)); (fun t => sym_define_memory t [122] DTYPE_CHAR)]) None.
Example test_resolve_call_expr_error_param_dtype_ok : errs test_resolve_call_expr_error_param_dtype = true. Proof. vm_compute. reflexivity. Qed.
(** tests/resolver/test_expression_error.c test_resolve_call_expr_error_callee_child *)
Definition test_resolve_call_expr_error_callee_child := expr_test (new_ast AST_CALL_EXPR [(new_identifier_ast AST_IDENT_EXPR [102; 117; 110; 99; 116; 105; 111; 110]); (new_ast AST_ARG_LIST [(new_identifier_ast AST_IDENT_EXPR [120])])]) (Some [(fun t => sym_define_memory t [120] DTYPE_INT)]) None.
Example test_resolve_call_expr_error_callee_child_ok : errs test_resolve_call_expr_error_callee_child = true. Proof. vm_compute. reflexivity. Qed.
(** tests/resolver/test_expression_error.c test_resolve_call_expr_error_param_child *)
Definition test_resolve_call_expr_error_param_child := expr_test (new_ast AST_CALL_EXPR [(new_identifier_ast AST_IDENT_EXPR [102; 117; 110; 99; 116; 105; 111; 110]); (new_ast AST_ARG_LIST [(new_identifier_ast AST_IDENT_EXPR [120]); (new_identifier_ast AST_IDENT_EXPR [121]); (new_identifier_ast AST_IDENT_EXPR [122])])]) (Some [(fun t => sym_define_label t [102; 117; 110; 99; 116; 105; 111; 110] (DTYPE_FUNCTION [(Some [120], DTYPE_INT); (Some [121], DTYPE_CHAR); (Some [122], DTYPE_INT)] DTYPE_INT)); (fun t => sym_define_memory t [122] DTYPE_CHAR)]) None.
Example test_resolve_call_expr_error_param_child_ok : errs test_resolve_call_expr_error_param_child = true. Proof. vm_compute. reflexivity. Qed.
(** tests/resolver/test_expression_error.c test_resolve_subscription_expr_error_non_obj_pointer *)
Definition test_resolve_subscription_expr_error_non_obj_pointer := expr_test (new_ast AST_SUBSC_EXPR [(new_identifier_ast AST_IDENT_EXPR [97]); (new_iliteral_ast AST_INT_EXPR (new_signed IInt 0))]) (Some [(fun t => sym_define_memory t [97] (DTYPE_FUNCTION [] DTYPE_INT))]) None.
Example test_resolve_subscription_expr_error_non_obj_pointer_ok : errs test_resolve_subscription_expr_error_non_obj_pointer = true. Proof. vm_compute. reflexivity. Qed.
(** tests/resolver/test_expression_error.c test_resolve_subscription_expr_error_non_pointer *)
Definition test_resolve_subscription_expr_error_non_pointer := expr_test (new_ast AST_SUBSC_EXPR [(new_identifier_ast AST_IDENT_EXPR [97]); (new_iliteral_ast AST_INT_EXPR (new_signed IInt 0))]) (Some [(fun t => sym_define_memory t [97] DTYPE_INT)]) None.
Example test_resolve_subscription_expr_error_non_pointer_ok : errs test_resolve_subscription_expr_error_non_pointer = true. Proof. vm_compute. reflexivity. Qed.
(** tests/resolver/test_expression_error.c test_resolve_subscription_expr_error_non_integer *)
Definition test_resolve_subscription_expr_error_non_integer := expr_test (new_ast AST_SUBSC_EXPR [(new_identifier_ast AST_IDENT_EXPR [97]); (new_identifier_ast AST_IDENT_EXPR [105])]) (Some [(fun t => sym_define_memory t [97] (DTYPE_ARRAY DTYPE_INT 5)); (fun t => sym_define_memory t [105] (DTYPE_POINTER DTYPE_INT))]) None.
Example test_resolve_subscription_expr_error_non_integer_ok : errs test_resolve_subscription_expr_error_non_integer = true. Proof. vm_compute. reflexivity. Qed.
(** tests/resolver/test_expression_error.c test_resolve_subscription_expr_error_lhs *)
Definition test_resolve_subscription_expr_error_lhs := expr_test (new_ast AST_SUBSC_EXPR [(new_identifier_ast AST_IDENT_EXPR [97]); (new_identifier_ast AST_IDENT_EXPR [105])]) None None.
Example test_resolve_subscription_expr_error_lhs_ok : errs test_resolve_subscription_expr_error_lhs = true. Proof. vm_compute. reflexivity. Qed.
(** tests/resolver/test_expression_error.c test_resolve_subscription_expr_error_rhs *)
Definition test_resolve_subscription_expr_error_rhs := expr_test (new_ast AST_SUBSC_EXPR [(new_identifier_ast AST_IDENT_EXPR [97]); (new_identifier_ast AST_IDENT_EXPR [105])]) (Some [(fun t => sym_define_memory t [97] (DTYPE_ARRAY DTYPE_INT 5))]) None.
Example test_resolve_subscription_expr_error_rhs_ok : errs test_resolve_subscription_expr_error_rhs = true. Proof. vm_compute. reflexivity. Qed.
(** tests/resolver/test_expression_error.c test_resolve_member_expr_error_non_struct *)
Definition test_resolve_member_expr_error_non_struct := expr_test (new_ast AST_MEMBER_EXPR [(new_identifier_ast AST_IDENT_EXPR [115; 116; 114; 117; 99; 116; 117; 114; 101]); (new_identifier_ast AST_IDENT_EXPR [109; 101; 109; 98; 101; 114])]) (Some [(fun t => sym_define_memory t [115; 116; 114; 117; 99; 116; 117; 114; 101] (DTYPE_POINTER (DTYPE_NSTRUCT [83; 116; 114; 117; 99; 116] 4 4)))]) (Some [(fun t => tag_define_struct t [83; 116; 114; 117; 99; 116] [([109; 101; 109; 98; 101; 114], DTYPE_INT)])]).
Example test_resolve_member_expr_error_non_struct_ok : errs test_resolve_member_expr_error_non_struct = true. Proof. vm_compute. reflexivity. Qed.
(** tests/resolver/test_expression_error.c test_resolve_member_expr_error_incomplete_struct *)
Definition test_resolve_member_expr_error_incomplete_struct := expr_test (new_ast AST_MEMBER_EXPR [(new_identifier_ast AST_IDENT_EXPR [115; 116; 114; 117; 99; 116; 117; 114; 101]); (new_identifier_ast AST_IDENT_EXPR [109; 101; 109; 98; 101; 114])]) (Some [(fun t => sym_define_memory t [115; 116; 114; 117; 99; 116; 117; 114; 101] (DTYPE_NSTRUCT [83; 116; 114; 117; 99; 116] 0 0))]) (Some []).
Example test_resolve_member_expr_error_incomplete_struct_ok : errs test_resolve_member_expr_error_incomplete_struct = true. Proof. vm_compute. reflexivity. Qed.
(** tests/resolver/test_expression_error.c test_resolve_member_expr_error_unknown_member *)
Definition test_resolve_member_expr_error_unknown_member := expr_test (new_ast AST_MEMBER_EXPR [(new_identifier_ast AST_IDENT_EXPR [115; 116; 114; 117; 99; 116; 117; 114; 101]); (new_identifier_ast AST_IDENT_EXPR [117; 110; 107; 110; 111; 119; 110])]) (Some [(fun t => sym_define_memory t [115; 116; 114; 117; 99; 116; 117; 114; 101] (DTYPE_NSTRUCT [83; 116; 114; 117; 99; 116] 4 4))]) (Some [(fun t => tag_define_struct t [83; 116; 114; 117; 99; 116] [([109; 101; 109; 98; 101; 114], DTYPE_INT)])]).
Example test_resolve_member_expr_error_unknown_member_ok : errs test_resolve_member_expr_error_unknown_member = true. Proof. vm_compute. reflexivity. Qed.
(** tests/resolver/test_expression_error.c test_resolve_member_expr_error_accessee_child *)
Definition test_resolve_member_expr_error_accessee_child := expr_test (new_ast AST_MEMBER_EXPR [(new_identifier_ast AST_IDENT_EXPR [115; 116; 114; 117; 99; 116; 117; 114; 101]); (new_identifier_ast AST_IDENT_EXPR [109; 101; 109; 98; 101; 114])]) None None.
Example test_resolve_member_expr_error_accessee_child_ok : errs test_resolve_member_expr_error_accessee_child = true. Proof. vm_compute. reflexivity. Qed.
(** tests/resolver/test_expression_error.c test_resolve_tomember_expr_error_non_pointer_to_struct *)
Definition test_resolve_tomember_expr_error_non_pointer_to_struct := expr_test (new_ast AST_TOMEMBER_EXPR [(new_identifier_ast AST_IDENT_EXPR [115; 116; 114; 117; 99; 116; 117; 114; 101]); (new_identifier_ast AST_IDENT_EXPR [109; 101; 109; 98; 101; 114])]) (Some [(fun t => sym_define_memory t [115; 116; 114; 117; 99; 116; 117; 114; 101] (DTYPE_NSTRUCT [83; 116; 114; 117; 99; 116] 4 4))]) (Some [(fun t => tag_define_struct t [83; 116; 114; 117; 99; 116] [([109; 101; 109; 98; 101; 114], DTYPE_INT)])]).
Example test_resolve_tomember_expr_error_non_pointer_to_struct_ok : errs test_resolve_tomember_expr_error_non_pointer_to_struct = true. Proof. vm_compute. reflexivity. Qed.
(** tests/resolver/test_expression_error.c test_resolve_tomember_expr_error_incomplete_struct *)
Definition test_resolve_tomember_expr_error_incomplete_struct := expr_test (new_ast AST_TOMEMBER_EXPR [(new_identifier_ast AST_IDENT_EXPR [115; 116; 114; 117; 99; 116; 117; 114; 101]); (new_identifier_ast AST_IDENT_EXPR [109; 101; 109; 98; 101; 114])]) (Some [(fun t => sym_define_memory t [115; 116; 114; 117; 99; 116; 117; 114; 101] (DTYPE_POINTER (DTYPE_NSTRUCT [83; 116; 114; 117; 99; 116] 0 0)))]) (Some []).
Example test_resolve_tomember_expr_error_incomplete_struct_ok : errs test_resolve_tomember_expr_error_incomplete_struct = true. Proof. vm_compute. reflexivity. Qed.
(** tests/resolver/test_expression_error.c test_resolve_tomember_expr_error_unknown_member *)
Definition test_resolve_tomember_expr_error_unknown_member := expr_test (new_ast AST_TOMEMBER_EXPR [(new_identifier_ast AST_IDENT_EXPR [115; 116; 114; 117; 99; 116; 117; 114; 101]); (new_identifier_ast AST_IDENT_EXPR [117; 110; 107; 110; 111; 119; 110])]) (Some [(fun t => sym_define_memory t [115; 116; 114; 117; 99; 116; 117; 114; 101] (DTYPE_POINTER (DTYPE_NSTRUCT [83; 116; 114; 117; 99; 116] 4 4)))]) (Some [(fun t => tag_define_struct t [83; 116; 114; 117; 99; 116] [([109; 101; 109; 98; 101; 114], DTYPE_INT)])]).
Example test_resolve_tomember_expr_error_unknown_member_ok : errs test_resolve_tomember_expr_error_unknown_member = true. Proof. vm_compute. reflexivity. Qed.
(** tests/resolver/test_expression_error.c test_resolve_tomember_expr_error_accessee_child *)
Definition test_resolve_tomember_expr_error_accessee_child := expr_test (new_ast AST_TOMEMBER_EXPR [(new_identifier_ast AST_IDENT_EXPR [115; 116; 114; 117; 99; 116; 117; 114; 101]); (new_identifier_ast AST_IDENT_EXPR [109; 101; 109; 98; 101; 114])]) None None.
Example test_resolve_tomember_expr_error_accessee_child_ok : errs test_resolve_tomember_expr_error_accessee_child = true. Proof. vm_compute. reflexivity. Qed.
(** tests/resolver/test_expression_error.c test_resolve_postinc_expr_error_unmodifiable *)
Definition test_resolve_postinc_expr_error_unmodifiable := expr_test (new_ast AST_POSTINC_EXPR [(new_identifier_ast AST_IDENT_EXPR [102])]) (Some [(fun t => sym_define_memory t [102] (DTYPE_FUNCTION [(Some [120], DTYPE_INT)] DTYPE_INT))]) None.
Example test_resolve_postinc_expr_error_unmodifiable_ok : errs test_resolve_postinc_expr_error_unmodifiable = true. Proof. vm_compute. reflexivity. Qed.
(** tests/resolver/test_expression_error.c test_resolve_postinc_expr_error_operand_dtype *)
Definition test_resolve_postinc_expr_error_operand_dtype := expr_test (new_ast AST_POSTINC_EXPR [(new_identifier_ast AST_IDENT_EXPR [105])]) (Some [(fun t => sym_define_memory t [105] (ust [([109; 101; 109; 98; 101; 114], DTYPE_INT)]))]) None.
Example test_resolve_postinc_expr_error_operand_dtype_ok : errs test_resolve_postinc_expr_error_operand_dtype = true. Proof. vm_compute. reflexivity. Qed.
(** tests/resolver/test_expression_error.c test_resolve_postinc_expr_error_child *)
Definition test_resolve_postinc_expr_error_child := expr_test (new_ast AST_POSTINC_EXPR [(new_identifier_ast AST_IDENT_EXPR [120])]) None None.
Example test_resolve_postinc_expr_error_child_ok : errs test_resolve_postinc_expr_error_child = true. Proof. vm_compute. reflexivity. Qed.
(** tests/resolver/test_expression_error.c test_resolve_postdec_expr_error_unmodifiable *)
Definition test_resolve_postdec_expr_error_unmodifiable := expr_test (new_ast AST_POSTDEC_EXPR [(new_iliteral_ast AST_INT_EXPR (new_signed IInt 3))]) None None.
Example test_resolve_postdec_expr_error_unmodifiable_ok : errs test_resolve_postdec_expr_error_unmodifiable = true. Proof. vm_compute. reflexivity. Qed.
(** tests/resolver/test_expression_error.c test_resolve_postdec_expr_error_operand_dtype *)
Definition test_resolve_postdec_expr_error_operand_dtype := expr_test (new_ast AST_POSTDEC_EXPR [(new_identifier_ast AST_IDENT_EXPR [106])]) (Some [(fun t => sym_define_memory t [106] (ust [([109; 101; 109; 98; 101; 114], DTYPE_INT)]))]) None.
Example test_resolve_postdec_expr_error_operand_dtype_ok : errs test_resolve_postdec_expr_error_operand_dtype = true. Proof. vm_compute. reflexivity. Qed.
(** tests/resolver/test_expression_error.c test_resolve_postdec_expr_error_child *)
Definition test_resolve_postdec_expr_error_child := expr_test (new_ast AST_POSTDEC_EXPR [(new_identifier_ast AST_IDENT_EXPR [120])]) None None.
Example test_resolve_postdec_expr_error_child_ok : errs test_resolve_postdec_expr_error_child = true. Proof. vm_compute. reflexivity. Qed.
(** tests/resolver/test_expression_error.c test_resolve_ident_expr_error *)
Definition test_resolve_ident_expr_error := expr_test (new_identifier_ast AST_IDENT_EXPR [120]) None None.
Example test_resolve_ident_expr_error_ok : errs test_resolve_ident_expr_error = true. Proof. vm_compute. reflexivity. Qed.
(** tests/resolver/test_statement.c test_resolve_case_stmt *)
Definition test_resolve_case_stmt := stmt_test (new_ast AST_SWITCH_STMT [(new_identifier_ast AST_IDENT_EXPR [120]); (new_ast AST_CASE_STMT [(new_iliteral_ast AST_INT_EXPR (new_signed IInt 0)); (new_ast AST_EXPR_STMT [(new_ast AST_ASSIGN_EXPR [(new_identifier_ast AST_IDENT_EXPR [121]); (new_iliteral_ast AST_INT_EXPR (new_signed IInt 1))])])])]) (Some [(fun t => sym_define_memory t [120] DTYPE_INT); (fun t => sym_define_memory t [121] DTYPE_INT)]) None.
Example test_resolve_case_stmt_ok : got test_resolve_case_stmt = Some (new_srt SRT_SWITCH_STMT [(new_identifier_srt SRT_IDENT_EXPR DTYPE_INT [120]); (new_srt SRT_CASE_STMT [(new_iliteral_srt DTYPE_INT (new_signed IInt 0)); (new_srt SRT_EXPR_STMT [(new_dtyped_srt SRT_ASSIGN_EXPR DTYPE_INT [(new_dtyped_srt SRT_ADDR_EXPR (DTYPE_POINTER DTYPE_INT) [(new_identifier_srt SRT_IDENT_EXPR DTYPE_INT [121])]); (new_iliteral_srt DTYPE_INT (new_signed IInt 1))])])])]). Proof. vm_compute. reflexivity. Qed.
(** tests/resolver/test_statement.c test_resolve_default_stmt *)
Definition test_resolve_default_stmt := stmt_test (new_ast AST_SWITCH_STMT [(new_identifier_ast AST_IDENT_EXPR [120]); (new_ast AST_DEFAULT_STMT [(new_ast AST_EXPR_STMT [(new_ast AST_ASSIGN_EXPR [(new_identifier_ast AST_IDENT_EXPR [121]); (new_iliteral_ast AST_INT_EXPR (new_signed IInt 9))])])])]) (Some [(fun t => sym_define_memory t [120] DTYPE_INT); (fun t => sym_define_memory t [121] DTYPE_INT)]) None.
Example test_resolve_default_stmt_ok : got test_resolve_default_stmt = Some (new_srt SRT_SWITCH_STMT [(new_identifier_srt SRT_IDENT_EXPR DTYPE_INT [120]); (new_srt SRT_DEFAULT_STMT [(new_srt SRT_EXPR_STMT [(new_dtyped_srt SRT_ASSIGN_EXPR DTYPE_INT [(new_dtyped_srt SRT_ADDR_EXPR (DTYPE_POINTER DTYPE_INT) [(new_identifier_srt SRT_IDENT_EXPR DTYPE_INT [121])]); (new_iliteral_srt DTYPE_INT (new_signed IInt 9))])])])]). Proof. vm_compute. reflexivity. Qed.
(** tests/resolver/test_statement.c test_resolve_compound_stmt_completed_typedef *)
Definition test_resolve_compound_stmt_completed_typedef := stmt_test (new_ast AST_CMPD_STMT [(new_ast AST_DECL [(new_ast AST_DECL_SPECS [(new_ast AST_STG_TYPEDEF []); (new_ast AST_TYPE_INT [])]); (new_ast AST_INIT_DECLOR_LIST [(new_ast AST_INIT_DECLOR [(new_ast AST_PTR_DECLOR [(new_identifier_ast AST_IDENT_DECLOR [112; 105; 110; 116])])])])]); (new_ast AST_DECL [(new_ast AST_DECL_SPECS [(new_identifier_ast AST_TYPEDEF_NAME [112; 105; 110; 116])]); (new_ast AST_INIT_DECLOR_LIST [(new_ast AST_INIT_DECLOR [(new_identifier_ast AST_IDENT_DECLOR [112])]); (new_ast AST_INIT_DECLOR [(new_identifier_ast AST_IDENT_DECLOR [113])])])]); (new_ast AST_EXPR_STMT [(new_ast AST_ASSIGN_EXPR [(new_ast AST_INDIR_EXPR [(new_identifier_ast AST_IDENT_EXPR [112])]); (new_ast AST_ASSIGN_EXPR [(new_ast AST_INDIR_EXPR [(new_identifier_ast AST_IDENT_EXPR [113])]); (new_iliteral_ast AST_INT_EXPR (new_signed IInt 7))])])])]) None None.
Example test_resolve_compound_stmt_completed_typedef_ok : got test_resolve_compound_stmt_completed_typedef = Some (new_srt SRT_CMPD_STMT [(new_srt SRT_DECL_LIST [(new_srt SRT_INIT_DECL [(new_identifier_srt SRT_IDENT_DECL (DTYPE_TYPEDEF (DTYPE_POINTER DTYPE_INT)) [112; 105; 110; 116])])]); (new_srt SRT_DECL_LIST [(new_srt SRT_INIT_DECL [(new_identifier_srt SRT_IDENT_DECL (DTYPE_POINTER DTYPE_INT) [112])]); (new_srt SRT_INIT_DECL [(new_identifier_srt SRT_IDENT_DECL (DTYPE_POINTER DTYPE_INT) [113])])]); (new_srt SRT_EXPR_STMT [(new_dtyped_srt SRT_ASSIGN_EXPR DTYPE_INT [(new_dtyped_srt SRT_ADDR_EXPR (DTYPE_POINTER DTYPE_INT) [(new_dtyped_srt SRT_INDIR_EXPR DTYPE_INT [(new_identifier_srt SRT_IDENT_EXPR (DTYPE_POINTER DTYPE_INT) [112])])]); (new_dtyped_srt SRT_ASSIGN_EXPR DTYPE_INT [(new_dtyped_srt SRT_ADDR_EXPR (DTYPE_POINTER DTYPE_INT) [(new_dtyped_srt SRT_INDIR_EXPR DTYPE_INT [(new_identifier_srt SRT_IDENT_EXPR (DTYPE_POINTER DTYPE_INT) [113])])]); (new_iliteral_srt DTYPE_INT (new_signed IInt 7))])])])]). Proof. vm_compute. reflexivity. Qed.
(** tests/resolver/test_statement.c test_resolve_compound_stmt_incompleted_typedef *)
Definition test_resolve_compound_stmt_incompleted_typedef := stmt_test (new_ast AST_CMPD_STMT [(new_ast AST_DECL [(new_ast AST_DECL_SPECS [(new_ast AST_TYPE_VOID [])]); (new_ast AST_INIT_DECLOR_LIST [(new_ast AST_INIT_DECLOR [(new_ast AST_FUNC_DECLOR [(new_ast AST_PTR_DECLOR [(new_identifier_ast AST_IDENT_DECLOR [109; 97; 108; 108; 111; 99])]); (new_ast AST_PARAM_LIST [(new_ast AST_PARAM_DECL [(new_ast AST_DECL_SPECS [(new_ast AST_TYPE_INT [])]); (new_ast AST_ABS_DECLOR [])])])])])])]); (new_ast AST_DECL [(new_ast AST_DECL_SPECS [(new_ast AST_STG_TYPEDEF []); (new_ast AST_TYPE_STRUCT [(new_identifier_ast AST_STRUCT_NAME [83; 116; 114; 117; 99; 116])])]); (new_ast AST_INIT_DECLOR_LIST [(new_ast AST_INIT_DECLOR [(new_identifier_ast AST_IDENT_DECLOR [83; 116; 114; 117; 99; 116])])])]); (new_ast AST_DECL [(new_ast AST_DECL_SPECS [(new_ast AST_TYPE_STRUCT [(new_identifier_ast AST_STRUCT_NAME [83; 116; 114; 117; 99; 116]); (new_ast AST_STRUCT_DECL_LIST [(new_ast AST_STRUCT_DECL [(new_ast AST_SPEC_QUAL_LIST [(new_ast AST_TYPE_INT [])]); (new_ast AST_STRUCT_DECLOR_LIST [(new_identifier_ast AST_IDENT_DECLOR [120]); (new_identifier_ast AST_IDENT_DECLOR [121])])]); (new_ast AST_STRUCT_DECL [(new_ast AST_SPEC_QUAL_LIST [(new_identifier_ast AST_TYPEDEF_NAME [83; 116; 114; 117; 99; 116])]); (new_ast AST_STRUCT_DECLOR_LIST [(new_ast AST_PTR_DECLOR [(new_identifier_ast AST_IDENT_DECLOR [110; 101; 120; 116])])])])])])])]); (new_ast AST_DECL [(new_ast AST_DECL_SPECS [(new_identifier_ast AST_TYPEDEF_NAME [83; 116; 114; 117; 99; 116])]); (new_ast AST_INIT_DECLOR_LIST [(new_ast AST_INIT_DECLOR [(new_ast AST_PTR_DECLOR [(new_identifier_ast AST_IDENT_DECLOR [115])]); (new_ast AST_CALL_EXPR [(new_identifier_ast AST_IDENT_EXPR [109; 97; 108; 108; 111; 99]); (new_ast AST_ARG_LIST [(new_ast AST_SIZEOF_EXPR [(new_ast AST_TYPE_NAME [(new_ast AST_SPEC_QUAL_LIST [(new_identifier_ast AST_TYPEDEF_NAME [83; 116; 114; 117; 99; 116])]); (new_ast AST_ABS_DECLOR [])])])])])])])])]) None None.
Example test_resolve_compound_stmt_incompleted_typedef_ok : got test_resolve_compound_stmt_incompleted_typedef = Some (new_srt SRT_CMPD_STMT [(new_srt SRT_DECL_LIST [(new_srt SRT_INIT_DECL [(new_identifier_srt SRT_IDENT_DECL (DTYPE_FUNCTION [(None, DTYPE_INT)] (DTYPE_POINTER DTYPE_VOID)) [109; 97; 108; 108; 111; 99])])]); (new_srt SRT_DECL_LIST [(new_srt SRT_INIT_DECL [(new_identifier_srt SRT_IDENT_DECL (DTYPE_TYPEDEF (DTYPE_NSTRUCT [83; 116; 114; 117; 99; 116] 0 0)) [83; 116; 114; 117; 99; 116])])]); (new_identifier_srt SRT_TAG_DECL (ust [([120], DTYPE_INT); ([121], DTYPE_INT); ([110; 101; 120; 116], (DTYPE_POINTER (DTYPE_NSTRUCT [83; 116; 114; 117; 99; 116] 0 0)))]) [83; 116; 114; 117; 99; 116]); (new_srt SRT_DECL_LIST []); (new_srt SRT_DECL_LIST [(new_srt SRT_INIT_DECL [(new_identifier_srt SRT_IDENT_DECL (DTYPE_POINTER (DTYPE_NSTRUCT [83; 116; 114; 117; 99; 116] 16 8)) [115]); (new_srt SRT_INIT [(new_dtyped_srt SRT_CAST_EXPR (DTYPE_POINTER (DTYPE_NSTRUCT [83; 116; 114; 117; 99; 116] 16 8)) [(new_dtyped_srt SRT_CALL_EXPR (DTYPE_POINTER DTYPE_VOID) [(new_dtyped_srt SRT_ADDR_EXPR (DTYPE_POINTER (DTYPE_FUNCTION [(None, DTYPE_INT)] (DTYPE_POINTER DTYPE_VOID))) [(new_identifier_srt SRT_IDENT_EXPR (DTYPE_FUNCTION [(None, DTYPE_INT)] (DTYPE_POINTER DTYPE_VOID)) [109; 97; 108; 108; 111; 99])]); (new_srt SRT_ARG_LIST [(new_iliteral_srt DTYPE_INT (new_signed IInt 16))])])])])])])]). Proof. vm_compute. reflexivity. Qed.
(** tests/resolver/test_statement.c test_resolve_compound_stmt_int *)
Definition test_resolve_compound_stmt_int := stmt_test (new_ast AST_CMPD_STMT [(new_ast AST_DECL [(new_ast AST_DECL_SPECS [(new_ast AST_TYPE_INT [])]); (new_ast AST_INIT_DECLOR_LIST [(new_ast AST_INIT_DECLOR [(new_identifier_ast AST_IDENT_DECLOR [120]); (new_iliteral_ast AST_INT_EXPR (new_signed IInt 3))]); (new_ast AST_INIT_DECLOR [(new_identifier_ast AST_IDENT_DECLOR [121]); (new_iliteral_ast AST_INT_EXPR (new_signed IInt 1))]); (new_ast AST_INIT_DECLOR [(new_ast AST_PTR_DECLOR [(new_identifier_ast AST_IDENT_DECLOR [122])])])])]); (new_ast AST_EXPR_STMT [(new_ast AST_ASSIGN_EXPR [(new_ast AST_INDIR_EXPR [(new_identifier_ast AST_IDENT_EXPR [122])]); (new_ast AST_SUB_EXPR [(new_identifier_ast AST_IDENT_EXPR [120]); (new_identifier_ast AST_IDENT_EXPR [121])])])]); (new_ast AST_EXPR_STMT [(new_ast AST_ASSIGN_EXPR [(new_identifier_ast AST_IDENT_EXPR [120]); (new_ast AST_MUL_EXPR [(new_iliteral_ast AST_INT_EXPR (new_signed IInt 2)); (new_identifier_ast AST_IDENT_EXPR [120])])])])]) None None.
Example test_resolve_compound_stmt_int_ok : got test_resolve_compound_stmt_int = Some (new_srt SRT_CMPD_STMT [(new_srt SRT_DECL_LIST [(new_srt SRT_INIT_DECL [(new_identifier_srt SRT_IDENT_DECL DTYPE_INT [120]); (new_srt SRT_INIT [(new_iliteral_srt DTYPE_INT (new_signed IInt 3))])]); (new_srt SRT_INIT_DECL [(new_identifier_srt SRT_IDENT_DECL DTYPE_INT [121]); (new_srt SRT_INIT [(new_iliteral_srt DTYPE_INT (new_signed IInt 1))])]); (new_srt SRT_INIT_DECL [(new_identifier_srt SRT_IDENT_DECL (DTYPE_POINTER DTYPE_INT) [122])])]); (new_srt SRT_EXPR_STMT [(new_dtyped_srt SRT_ASSIGN_EXPR DTYPE_INT [(new_dtyped_srt SRT_ADDR_EXPR (DTYPE_POINTER DTYPE_INT) [(new_dtyped_srt SRT_INDIR_EXPR DTYPE_INT [(new_identifier_srt SRT_IDENT_EXPR (DTYPE_POINTER DTYPE_INT) [122])])]); (new_dtyped_srt SRT_SUB_EXPR DTYPE_INT [(new_identifier_srt SRT_IDENT_EXPR DTYPE_INT [120]); (new_identifier_srt SRT_IDENT_EXPR DTYPE_INT [121])])])]); (new_srt SRT_EXPR_STMT [(new_dtyped_srt SRT_ASSIGN_EXPR DTYPE_INT [(new_dtyped_srt SRT_ADDR_EXPR (DTYPE_POINTER DTYPE_INT) [(new_identifier_srt SRT_IDENT_EXPR DTYPE_INT [120])]); (new_dtyped_srt SRT_MUL_EXPR DTYPE_INT [(new_iliteral_srt DTYPE_INT (new_signed IInt 2)); (new_identifier_srt SRT_IDENT_EXPR DTYPE_INT [120])])])])]). Proof. vm_compute. reflexivity. Qed.
(** tests/resolver/test_statement.c test_resolve_compound_stmt_unsigned_int *)
Definition test_resolve_compound_stmt_unsigned_int := stmt_test (new_ast AST_CMPD_STMT [(new_ast AST_DECL [(new_ast AST_DECL_SPECS [(new_ast AST_TYPE_UNSIGNED []); (new_ast AST_TYPE_INT [])]); (new_ast AST_INIT_DECLOR_LIST [(new_ast AST_INIT_DECLOR [(new_identifier_ast AST_IDENT_DECLOR [120]); (new_iliteral_ast AST_INT_EXPR (new_unsigned IUInt 4))])])]); (new_ast AST_DECL [(new_ast AST_DECL_SPECS [(new_ast AST_TYPE_INT []); (new_ast AST_TYPE_UNSIGNED [])]); (new_ast AST_INIT_DECLOR_LIST [(new_ast AST_INIT_DECLOR [(new_identifier_ast AST_IDENT_DECLOR [121]); (new_iliteral_ast AST_INT_EXPR (new_unsigned IUInt 2))])])]); (new_ast AST_DECL [(new_ast AST_DECL_SPECS [(new_ast AST_TYPE_UNSIGNED [])]); (new_ast AST_INIT_DECLOR_LIST [(new_ast AST_INIT_DECLOR [(new_ast AST_PTR_DECLOR [(new_identifier_ast AST_IDENT_DECLOR [122])])])])]); (new_ast AST_EXPR_STMT [(new_ast AST_ASSIGN_EXPR [(new_ast AST_INDIR_EXPR [(new_identifier_ast AST_IDENT_EXPR [122])]); (new_ast AST_DIV_EXPR [(new_identifier_ast AST_IDENT_EXPR [120]); (new_identifier_ast AST_IDENT_EXPR [121])])])])]) None None.
Example test_resolve_compound_stmt_unsigned_int_ok : got test_resolve_compound_stmt_unsigned_int = Some (new_srt SRT_CMPD_STMT [(new_srt SRT_DECL_LIST [(new_srt SRT_INIT_DECL [(new_identifier_srt SRT_IDENT_DECL DTYPE_UNSIGNED_INT [120]); (new_srt SRT_INIT [(new_iliteral_srt DTYPE_UNSIGNED_INT (new_unsigned IUInt 4))])])]); (new_srt SRT_DECL_LIST [(new_srt SRT_INIT_DECL [(new_identifier_srt SRT_IDENT_DECL DTYPE_UNSIGNED_INT [121]); (new_srt SRT_INIT [(new_iliteral_srt DTYPE_UNSIGNED_INT (new_unsigned IUInt 2))])])]); (new_srt SRT_DECL_LIST [(new_srt SRT_INIT_DECL [(new_identifier_srt SRT_IDENT_DECL (DTYPE_POINTER DTYPE_UNSIGNED_INT) [122])])]); (new_srt SRT_EXPR_STMT [(new_dtyped_srt SRT_ASSIGN_EXPR DTYPE_UNSIGNED_INT [(new_dtyped_srt SRT_ADDR_EXPR (DTYPE_POINTER DTYPE_UNSIGNED_INT) [(new_dtyped_srt SRT_INDIR_EXPR DTYPE_UNSIGNED_INT [(new_identifier_srt SRT_IDENT_EXPR (DTYPE_POINTER DTYPE_UNSIGNED_INT) [122])])]); (new_dtyped_srt SRT_DIV_EXPR DTYPE_UNSIGNED_INT [(new_identifier_srt SRT_IDENT_EXPR DTYPE_UNSIGNED_INT [120]); (new_identifier_srt SRT_IDENT_EXPR DTYPE_UNSIGNED_INT [121])])])])]). Proof. vm_compute. reflexivity. Qed.
(** tests/resolver/test_statement.c test_resolve_compound_stmt_long *)
Definition test_resolve_compound_stmt_long := stmt_test (new_ast AST_CMPD_STMT [(new_ast AST_DECL [(new_ast AST_DECL_SPECS [(new_ast AST_TYPE_LONG [])]); (new_ast AST_INIT_DECLOR_LIST [(new_ast AST_INIT_DECLOR [(new_identifier_ast AST_IDENT_DECLOR [120]); (new_iliteral_ast AST_INT_EXPR (new_signed ILong 5))])])]); (new_ast AST_DECL [(new_ast AST_DECL_SPECS [(new_ast AST_TYPE_LONG []); (new_ast AST_TYPE_INT [])]); (new_ast AST_INIT_DECLOR_LIST [(new_ast AST_INIT_DECLOR [(new_identifier_ast AST_IDENT_DECLOR [121]); (new_iliteral_ast AST_INT_EXPR (new_signed ILong 3))])])]); (new_ast AST_DECL [(new_ast AST_DECL_SPECS [(new_ast AST_TYPE_INT []); (new_ast AST_TYPE_LONG [])]); (new_ast AST_INIT_DECLOR_LIST [(new_ast AST_INIT_DECLOR [(new_ast AST_PTR_DECLOR [(new_identifier_ast AST_IDENT_DECLOR [122])])])])]); (new_ast AST_EXPR_STMT [(new_ast AST_ASSIGN_EXPR [(new_ast AST_INDIR_EXPR [(new_identifier_ast AST_IDENT_EXPR [122])]); (new_ast AST_ADD_EXPR [(new_identifier_ast AST_IDENT_EXPR [120]); (new_identifier_ast AST_IDENT_EXPR [121])])])])]) None None.
Example test_resolve_compound_stmt_long_ok : got test_resolve_compound_stmt_long = Some (new_srt SRT_CMPD_STMT [(new_srt SRT_DECL_LIST [(new_srt SRT_INIT_DECL [(new_identifier_srt SRT_IDENT_DECL DTYPE_LONG [120]); (new_srt SRT_INIT [(new_iliteral_srt DTYPE_LONG (new_signed ILong 5))])])]); (new_srt SRT_DECL_LIST [(new_srt SRT_INIT_DECL [(new_identifier_srt SRT_IDENT_DECL DTYPE_LONG [121]); (new_srt SRT_INIT [(new_iliteral_srt DTYPE_LONG (new_signed ILong 3))])])]); (new_srt SRT_DECL_LIST [(new_srt SRT_INIT_DECL [(new_identifier_srt SRT_IDENT_DECL (DTYPE_POINTER DTYPE_LONG) [122])])]); (new_srt SRT_EXPR_STMT [(new_dtyped_srt SRT_ASSIGN_EXPR DTYPE_LONG [(new_dtyped_srt SRT_ADDR_EXPR (DTYPE_POINTER DTYPE_LONG) [(new_dtyped_srt SRT_INDIR_EXPR DTYPE_LONG [(new_identifier_srt SRT_IDENT_EXPR (DTYPE_POINTER DTYPE_LONG) [122])])]); (new_dtyped_srt SRT_ADD_EXPR DTYPE_LONG [(new_identifier_srt SRT_IDENT_EXPR DTYPE_LONG [120]); (new_identifier_srt SRT_IDENT_EXPR DTYPE_LONG [121])])])])]). Proof. vm_compute. reflexivity. Qed.
(** tests/resolver/test_statement.c test_resolve_compound_stmt_unsigned_long *)
Definition test_resolve_compound_stmt_unsigned_long := stmt_test (new_ast AST_CMPD_STMT [(new_ast AST_DECL [(new_ast AST_DECL_SPECS [(new_ast AST_TYPE_UNSIGNED []); (new_ast AST_TYPE_LONG [])]); (new_ast AST_INIT_DECLOR_LIST [(new_ast AST_INIT_DECLOR [(new_identifier_ast AST_IDENT_DECLOR [120]); (new_iliteral_ast AST_INT_EXPR (new_unsigned IULong 6))])])]); (new_ast AST_DECL [(new_ast AST_DECL_SPECS [(new_ast AST_TYPE_LONG []); (new_ast AST_TYPE_UNSIGNED []); (new_ast AST_TYPE_INT [])]); (new_ast AST_INIT_DECLOR_LIST [(new_ast AST_INIT_DECLOR [(new_identifier_ast AST_IDENT_DECLOR [121]); (new_iliteral_ast AST_INT_EXPR (new_unsigned IULong 4))])])]); (new_ast AST_DECL [(new_ast AST_DECL_SPECS [(new_ast AST_TYPE_UNSIGNED []); (new_ast AST_TYPE_INT []); (new_ast AST_TYPE_LONG [])]); (new_ast AST_INIT_DECLOR_LIST [(new_ast AST_INIT_DECLOR [(new_ast AST_PTR_DECLOR [(new_identifier_ast AST_IDENT_DECLOR [122])])])])]); (new_ast AST_EXPR_STMT [(new_ast AST_ASSIGN_EXPR [(new_ast AST_INDIR_EXPR [(new_identifier_ast AST_IDENT_EXPR [122])]); (new_ast AST_SUB_EXPR [(new_identifier_ast AST_IDENT_EXPR [120]); (new_identifier_ast AST_IDENT_EXPR [121])])])])]) None None.
Example test_resolve_compound_stmt_unsigned_long_ok : got test_resolve_compound_stmt_unsigned_long = Some (new_srt SRT_CMPD_STMT [(new_srt SRT_DECL_LIST [(new_srt SRT_INIT_DECL [(new_identifier_srt SRT_IDENT_DECL DTYPE_UNSIGNED_LONG [120]); (new_srt SRT_INIT [(new_iliteral_srt DTYPE_UNSIGNED_LONG (new_unsigned IULong 6))])])]); (new_srt SRT_DECL_LIST [(new_srt SRT_INIT_DECL [(new_identifier_srt SRT_IDENT_DECL DTYPE_UNSIGNED_LONG [121]); (new_srt SRT_INIT [(new_iliteral_srt DTYPE_UNSIGNED_LONG (new_unsigned IULong 4))])])]); (new_srt SRT_DECL_LIST [(new_srt SRT_INIT_DECL [(new_identifier_srt SRT_IDENT_DECL (DTYPE_POINTER DTYPE_UNSIGNED_LONG) [122])])]); (new_srt SRT_EXPR_STMT [(new_dtyped_srt SRT_ASSIGN_EXPR DTYPE_UNSIGNED_LONG [(new_dtyped_srt SRT_ADDR_EXPR (DTYPE_POINTER DTYPE_UNSIGNED_LONG) [(new_dtyped_srt SRT_INDIR_EXPR DTYPE_UNSIGNED_LONG [(new_identifier_srt SRT_IDENT_EXPR (DTYPE_POINTER DTYPE_UNSIGNED_LONG) [122])])]); (new_dtyped_srt SRT_SUB_EXPR DTYPE_UNSIGNED_LONG [(new_identifier_srt SRT_IDENT_EXPR DTYPE_UNSIGNED_LONG [120]); (new_identifier_srt SRT_IDENT_EXPR DTYPE_UNSIGNED_LONG [121])])])])]). Proof. vm_compute. reflexivity. Qed.
(** tests/resolver/test_statement.c test_resolve_compound_stmt_long_long *)
Definition test_resolve_compound_stmt_long_long := stmt_test (new_ast AST_CMPD_STMT [(new_ast AST_DECL [(new_ast AST_DECL_SPECS [(new_ast AST_TYPE_LONG []); (new_ast AST_TYPE_LONG [])]); (new_ast AST_INIT_DECLOR_LIST [(new_ast AST_INIT_DECLOR [(new_identifier_ast AST_IDENT_DECLOR [120]); (new_iliteral_ast AST_INT_EXPR (new_signed ILongLong 7))])])]); (new_ast AST_DECL [(new_ast AST_DECL_SPECS [(new_ast AST_TYPE_LONG []); (new_ast AST_TYPE_LONG []); (new_ast AST_TYPE_INT [])]); (new_ast AST_INIT_DECLOR_LIST [(new_ast AST_INIT_DECLOR [(new_identifier_ast AST_IDENT_DECLOR [121]); (new_iliteral_ast AST_INT_EXPR (new_signed ILongLong 5))])])]); (new_ast AST_DECL [(new_ast AST_DECL_SPECS [(new_ast AST_TYPE_LONG []); (new_ast AST_TYPE_INT []); (new_ast AST_TYPE_LONG [])]); (new_ast AST_INIT_DECLOR_LIST [(new_ast AST_INIT_DECLOR [(new_ast AST_PTR_DECLOR [(new_identifier_ast AST_IDENT_DECLOR [122])])])])]); (new_ast AST_EXPR_STMT [(new_ast AST_ASSIGN_EXPR [(new_ast AST_INDIR_EXPR [(new_identifier_ast AST_IDENT_EXPR [122])]); (new_ast AST_ADD_EXPR [(new_identifier_ast AST_IDENT_EXPR [120]); (new_identifier_ast AST_IDENT_EXPR [121])])])])]) None None.
Example test_resolve_compound_stmt_long_long_ok : got test_resolve_compound_stmt_long_long = Some (new_srt SRT_CMPD_STMT [(new_srt SRT_DECL_LIST [(new_srt SRT_INIT_DECL [(new_identifier_srt SRT_IDENT_DECL DTYPE_LONGLONG [120]); (new_srt SRT_INIT [(new_iliteral_srt DTYPE_LONGLONG (new_signed ILongLong 7))])])]); (new_srt SRT_DECL_LIST [(new_srt SRT_INIT_DECL [(new_identifier_srt SRT_IDENT_DECL DTYPE_LONGLONG [121]); (new_srt SRT_INIT [(new_iliteral_srt DTYPE_LONGLONG (new_signed ILongLong 5))])])]); (new_srt SRT_DECL_LIST [(new_srt SRT_INIT_DECL [(new_identifier_srt SRT_IDENT_DECL (DTYPE_POINTER DTYPE_LONGLONG) [122])])]); (new_srt SRT_EXPR_STMT [(new_dtyped_srt SRT_ASSIGN_EXPR DTYPE_LONGLONG [(new_dtyped_srt SRT_ADDR_EXPR (DTYPE_POINTER DTYPE_LONGLONG) [(new_dtyped_srt SRT_INDIR_EXPR DTYPE_LONGLONG [(new_identifier_srt SRT_IDENT_EXPR (DTYPE_POINTER DTYPE_LONGLONG) [122])])]); (new_dtyped_srt SRT_ADD_EXPR DTYPE_LONGLONG [(new_identifier_srt SRT_IDENT_EXPR DTYPE_LONGLONG [120]); (new_identifier_srt SRT_IDENT_EXPR DTYPE_LONGLONG [121])])])])]). Proof. vm_compute. reflexivity. Qed.
(** tests/resolver/test_statement.c test_resolve_compound_stmt_unsigned_long_long *)
Definition test_resolve_compound_stmt_unsigned_long_long := stmt_test (new_ast AST_CMPD_STMT [(new_ast AST_DECL [(new_ast AST_DECL_SPECS [(new_ast AST_TYPE_UNSIGNED []); (new_ast AST_TYPE_LONG []); (new_ast AST_TYPE_LONG [])]); (new_ast AST_INIT_DECLOR_LIST [(new_ast AST_INIT_DECLOR [(new_identifier_ast AST_IDENT_DECLOR [120]); (new_iliteral_ast AST_INT_EXPR (new_unsigned IULongLong 8))])])]); (new_ast AST_DECL [(new_ast AST_DECL_SPECS [(new_ast AST_TYPE_LONG []); (new_ast AST_TYPE_UNSIGNED []); (new_ast AST_TYPE_LONG []); (new_ast AST_TYPE_INT [])]); (new_ast AST_INIT_DECLOR_LIST [(new_ast AST_INIT_DECLOR [(new_identifier_ast AST_IDENT_DECLOR [121]); (new_iliteral_ast AST_INT_EXPR (new_unsigned IULongLong 6))])])]); (new_ast AST_DECL [(new_ast AST_DECL_SPECS [(new_ast AST_TYPE_UNSIGNED []); (new_ast AST_TYPE_LONG []); (new_ast AST_TYPE_LONG []); (new_ast AST_TYPE_INT [])]); (new_ast AST_INIT_DECLOR_LIST [(new_ast AST_INIT_DECLOR [(new_ast AST_PTR_DECLOR [(new_identifier_ast AST_IDENT_DECLOR [122])])])])]); (new_ast AST_EXPR_STMT [(new_ast AST_ASSIGN_EXPR [(new_ast AST_INDIR_EXPR [(new_identifier_ast AST_IDENT_EXPR [122])]); (new_ast AST_MUL_EXPR [(new_identifier_ast AST_IDENT_EXPR [120]); (new_identifier_ast AST_IDENT_EXPR [121])])])])]) None None.
Example test_resolve_compound_stmt_unsigned_long_long_ok : got test_resolve_compound_stmt_unsigned_long_long = Some (new_srt SRT_CMPD_STMT [(new_srt SRT_DECL_LIST [(new_srt SRT_INIT_DECL [(new_identifier_srt SRT_IDENT_DECL DTYPE_UNSIGNED_LONGLONG [120]); (new_srt SRT_INIT [(new_iliteral_srt DTYPE_UNSIGNED_LONGLONG (new_unsigned IULongLong 8))])])]); (new_srt SRT_DECL_LIST [(new_srt SRT_INIT_DECL [(new_identifier_srt SRT_IDENT_DECL DTYPE_UNSIGNED_LONGLONG [121]); (new_srt SRT_INIT [(new_iliteral_srt DTYPE_UNSIGNED_LONGLONG (new_unsigned IULongLong 6))])])]); (new_srt SRT_DECL_LIST [(new_srt SRT_INIT_DECL [(new_identifier_srt SRT_IDENT_DECL (DTYPE_POINTER DTYPE_UNSIGNED_LONGLONG) [122])])]); (new_srt SRT_EXPR_STMT [(new_dtyped_srt SRT_ASSIGN_EXPR DTYPE_UNSIGNED_LONGLONG [(new_dtyped_srt SRT_ADDR_EXPR (DTYPE_POINTER DTYPE_UNSIGNED_LONGLONG) [(new_dtyped_srt SRT_INDIR_EXPR DTYPE_UNSIGNED_LONGLONG [(new_identifier_srt SRT_IDENT_EXPR (DTYPE_POINTER DTYPE_UNSIGNED_LONGLONG) [122])])]); (new_dtyped_srt SRT_MUL_EXPR DTYPE_UNSIGNED_LONGLONG [(new_identifier_srt SRT_IDENT_EXPR DTYPE_UNSIGNED_LONGLONG [120]); (new_identifier_srt SRT_IDENT_EXPR DTYPE_UNSIGNED_LONGLONG [121])])])])]). Proof. vm_compute. reflexivity. Qed.
(** tests/resolver/test_statement.c test_resolve_compound_stmt_void_pointer *)
Definition test_resolve_compound_stmt_void_pointer := stmt_test (new_ast AST_CMPD_STMT [(new_ast AST_DECL [(new_ast AST_DECL_SPECS [(new_ast AST_TYPE_VOID [])]); (new_ast AST_INIT_DECLOR_LIST [(new_ast AST_INIT_DECLOR [(new_ast AST_FUNC_DECLOR [(new_ast AST_PTR_DECLOR [(new_identifier_ast AST_IDENT_DECLOR [109; 97; 108; 108; 111; 99])]); (new_ast AST_PARAM_LIST [(new_ast AST_PARAM_DECL [(new_ast AST_DECL_SPECS [(new_ast AST_TYPE_INT [])]); (new_identifier_ast AST_IDENT_DECLOR [110])])])])])])]); (new_ast AST_DECL [(new_ast AST_DECL_SPECS [(new_ast AST_TYPE_VOID [])]); (new_ast AST_INIT_DECLOR_LIST [(new_ast AST_INIT_DECLOR [(new_ast AST_FUNC_DECLOR [(new_identifier_ast AST_IDENT_DECLOR [102; 114; 101; 101]); (new_ast AST_PARAM_LIST [(new_ast AST_PARAM_DECL [(new_ast AST_DECL_SPECS [(new_ast AST_TYPE_VOID [])]); (new_ast AST_PTR_DECLOR [(new_identifier_ast AST_IDENT_DECLOR [112])])])])])])])]); (new_ast AST_DECL [(new_ast AST_DECL_SPECS [(new_ast AST_TYPE_INT [])]); (new_ast AST_INIT_DECLOR_LIST [(new_ast AST_INIT_DECLOR [(new_ast AST_PTR_DECLOR [(new_identifier_ast AST_IDENT_DECLOR [120])]); (new_ast AST_CALL_EXPR [(new_identifier_ast AST_IDENT_EXPR [109; 97; 108; 108; 111; 99]); (new_ast AST_ARG_LIST [(new_iliteral_ast AST_INT_EXPR (new_signed IInt 4))])])])])]); (new_ast AST_EXPR_STMT [(new_ast AST_CALL_EXPR [(new_identifier_ast AST_IDENT_EXPR [102; 114; 101; 101]); (new_ast AST_ARG_LIST [(new_identifier_ast AST_IDENT_EXPR [120])])])])]) None None.
Example test_resolve_compound_stmt_void_pointer_ok : got test_resolve_compound_stmt_void_pointer = Some (new_srt SRT_CMPD_STMT [(new_srt SRT_DECL_LIST [(new_srt SRT_INIT_DECL [(new_identifier_srt SRT_IDENT_DECL (DTYPE_FUNCTION [(Some [110], DTYPE_INT)] (DTYPE_POINTER DTYPE_VOID)) [109; 97; 108; 108; 111; 99])])]); (new_srt SRT_DECL_LIST [(new_srt SRT_INIT_DECL [(new_identifier_srt SRT_IDENT_DECL (DTYPE_FUNCTION [(Some [112], (DTYPE_POINTER DTYPE_VOID))] DTYPE_VOID) [102; 114; 101; 101])])]); (new_srt SRT_DECL_LIST [(new_srt SRT_INIT_DECL [(new_identifier_srt SRT_IDENT_DECL (DTYPE_POINTER DTYPE_INT) [120]); (new_srt SRT_INIT [(new_dtyped_srt SRT_CAST_EXPR (DTYPE_POINTER DTYPE_INT) [(new_dtyped_srt SRT_CALL_EXPR (DTYPE_POINTER DTYPE_VOID) [(new_dtyped_srt SRT_ADDR_EXPR (DTYPE_POINTER (DTYPE_FUNCTION [(Some [110], DTYPE_INT)] (DTYPE_POINTER DTYPE_VOID))) [(new_identifier_srt SRT_IDENT_EXPR (DTYPE_FUNCTION [(Some [110], DTYPE_INT)] (DTYPE_POINTER DTYPE_VOID)) [109; 97; 108; 108; 111; 99])]); (new_srt SRT_ARG_LIST [(new_iliteral_srt DTYPE_INT (new_signed IInt 4))])])])])])]); (new_srt SRT_EXPR_STMT [(new_dtyped_srt SRT_CALL_EXPR DTYPE_VOID [(new_dtyped_srt SRT_ADDR_EXPR (DTYPE_POINTER (DTYPE_FUNCTION [(Some [112], (DTYPE_POINTER DTYPE_VOID))] DTYPE_VOID)) [(new_identifier_srt SRT_IDENT_EXPR (DTYPE_FUNCTION [(Some [112], (DTYPE_POINTER DTYPE_VOID))] DTYPE_VOID) [102; 114; 101; 101])]); (new_srt SRT_ARG_LIST [(new_dtyped_srt SRT_CAST_EXPR (DTYPE_POINTER DTYPE_VOID) [(new_identifier_srt SRT_IDENT_EXPR (DTYPE_POINTER DTYPE_INT) [120])])])])])]). Proof. vm_compute. reflexivity. Qed.
(** tests/resolver/test_statement.c test_resolve_compound_stmt_empty *)
Definition test_resolve_compound_stmt_empty := stmt_test (new_ast AST_CMPD_STMT []) None None.
Example test_resolve_compound_stmt_empty_ok : got test_resolve_compound_stmt_empty = Some (new_srt SRT_CMPD_STMT []). Proof. vm_compute. reflexivity. Qed.
(** tests/resolver/test_statement.c test_resolve_continue_stmt *)
Definition test_resolve_continue_stmt := stmt_test (new_ast AST_WHILE_STMT [(new_iliteral_ast AST_INT_EXPR (new_signed IInt 1)); (new_ast AST_CMPD_STMT [(new_ast AST_CONTINUE_STMT [])])]) None None.
Example test_resolve_continue_stmt_ok : got test_resolve_continue_stmt = Some (new_srt SRT_WHILE_STMT [(new_iliteral_srt DTYPE_INT (new_signed IInt 1)); (new_srt SRT_CMPD_STMT [(new_srt SRT_CONTINUE_STMT [])])]). Proof. vm_compute. reflexivity. Qed.
(** tests/resolver/test_statement.c test_resolve_continue_stmt_nested *)
Definition test_resolve_continue_stmt_nested := stmt_test (new_ast AST_WHILE_STMT [(new_iliteral_ast AST_INT_EXPR (new_signed IInt 1)); (new_ast AST_CMPD_STMT [(new_ast AST_CONTINUE_STMT []); (new_ast AST_FOR_STMT [(new_ast AST_NULL_STMT []); (new_ast AST_NULL_STMT []); (new_ast AST_NULL_STMT []); (new_ast AST_CMPD_STMT [(new_ast AST_CONTINUE_STMT [])])]); (new_ast AST_CONTINUE_STMT [])])]) None None.
Example test_resolve_continue_stmt_nested_ok : got test_resolve_continue_stmt_nested = Some (new_srt SRT_WHILE_STMT [(new_iliteral_srt DTYPE_INT (new_signed IInt 1)); (new_srt SRT_CMPD_STMT [(new_srt SRT_CONTINUE_STMT []); (new_srt SRT_FOR_STMT [(new_srt SRT_NULL_STMT []); (new_srt SRT_NULL_STMT []); (new_srt SRT_NULL_STMT []); (new_srt SRT_CMPD_STMT [(new_srt SRT_CONTINUE_STMT [])])]); (new_srt SRT_CONTINUE_STMT [])])]). Proof. vm_compute. reflexivity. Qed.
(** tests/resolver/test_statement.c test_resolve_break_stmt *)
Definition test_resolve_break_stmt := stmt_test (new_ast AST_FOR_STMT [(new_ast AST_NULL_STMT []); (new_ast AST_NULL_STMT []); (new_ast AST_NULL_STMT []); (new_ast AST_CMPD_STMT [(new_ast AST_BREAK_STMT [])])]) None None.
Example test_resolve_break_stmt_ok : got test_resolve_break_stmt = Some (new_srt SRT_FOR_STMT [(new_srt SRT_NULL_STMT []); (new_srt SRT_NULL_STMT []); (new_srt SRT_NULL_STMT []); (new_srt SRT_CMPD_STMT [(new_srt SRT_BREAK_STMT [])])]). Proof. vm_compute. reflexivity. Qed.
(** tests/resolver/test_statement.c test_resolve_break_stmt_nested *)
Definition test_resolve_break_stmt_nested := stmt_test (new_ast AST_FOR_STMT [(new_ast AST_NULL_STMT []); (new_ast AST_NULL_STMT []); (new_ast AST_NULL_STMT []); (new_ast AST_CMPD_STMT [(new_ast AST_BREAK_STMT []); (new_ast AST_WHILE_STMT [(new_iliteral_ast AST_INT_EXPR (new_signed IInt 1)); (new_ast AST_CMPD_STMT [(new_ast AST_BREAK_STMT [])])]); (new_ast AST_BREAK_STMT [])])]) None None.
Example test_resolve_break_stmt_nested_ok : got test_resolve_break_stmt_nested = Some (new_srt SRT_FOR_STMT [(new_srt SRT_NULL_STMT []); (new_srt SRT_NULL_STMT []); (new_srt SRT_NULL_STMT []); (new_srt SRT_CMPD_STMT [(new_srt SRT_BREAK_STMT []); (new_srt SRT_WHILE_STMT [(new_iliteral_srt DTYPE_INT (new_signed IInt 1)); (new_srt SRT_CMPD_STMT [(new_srt SRT_BREAK_STMT [])])]); (new_srt SRT_BREAK_STMT [])])]). Proof. vm_compute. reflexivity. Qed.
(** tests/resolver/test_statement.c test_resolve_return_stmt_without_cast *)
Definition test_resolve_return_stmt_without_cast := stmt_test (new_ast AST_RET_STMT [(new_iliteral_ast AST_INT_EXPR (new_signed IInt 0))]) None (Some DTYPE_INT).
Example test_resolve_return_stmt_without_cast_ok : got test_resolve_return_stmt_without_cast = Some (new_srt SRT_RET_STMT [(new_iliteral_srt DTYPE_INT (new_signed IInt 0))]). Proof. vm_compute. reflexivity. Qed.
(** tests/resolver/test_statement.c test_resolve_return_stmt_with_cast *)
Definition test_resolve_return_stmt_with_cast := stmt_test (new_ast AST_RET_STMT [(new_iliteral_ast AST_INT_EXPR (new_signed IInt 0))]) None (Some DTYPE_CHAR).
Example test_resolve_return_stmt_with_cast_ok : got test_resolve_return_stmt_with_cast = Some (new_srt SRT_RET_STMT [(new_dtyped_srt SRT_CAST_EXPR DTYPE_CHAR [(new_iliteral_srt DTYPE_INT (new_signed IInt 0))])]). Proof. vm_compute. reflexivity. Qed.
(** tests/resolver/test_statement.c test_resolve_return_stmt_array *)
Definition test_resolve_return_stmt_array := stmt_test (new_ast AST_RET_STMT [(new_sliteral_ast AST_STRING_EXPR [114; 101; 116; 117; 114; 110; 0])]) None (Some (DTYPE_POINTER DTYPE_CHAR)).
Example test_resolve_return_stmt_array_ok : got test_resolve_return_stmt_array = Some (new_srt SRT_RET_STMT [(new_dtyped_srt SRT_ADDR_EXPR (DTYPE_POINTER DTYPE_CHAR) [(new_string_srt SRT_STR_EXPR (DTYPE_ARRAY DTYPE_CHAR 7) 0)])]). Proof. vm_compute. reflexivity. Qed.
(** tests/resolver/test_statement.c test_resolve_return_stmt_function *)
Definition test_resolve_return_stmt_function := stmt_test (new_ast AST_RET_STMT [(new_identifier_ast AST_IDENT_EXPR [102; 117; 110; 99])]) (Some [(fun t => sym_define_label t [102; 117; 110; 99] (DTYPE_FUNCTION [(Some [120], DTYPE_INT)] DTYPE_INT))]) (Some (DTYPE_POINTER (DTYPE_FUNCTION [(Some [120], DTYPE_INT)] DTYPE_INT))).
Example test_resolve_return_stmt_function_ok : got test_resolve_return_stmt_function = Some (new_srt SRT_RET_STMT [(new_dtyped_srt SRT_ADDR_EXPR (DTYPE_POINTER (DTYPE_FUNCTION [(Some [120], DTYPE_INT)] DTYPE_INT)) [(new_identifier_srt SRT_IDENT_EXPR (DTYPE_FUNCTION [(Some [120], DTYPE_INT)] DTYPE_INT) [102; 117; 110; 99])])]). Proof. vm_compute. reflexivity. Qed.
(** tests/resolver/test_statement.c test_resolve_return_stmt_void *)
Definition test_resolve_return_stmt_void := stmt_test (new_ast AST_RET_STMT []) None (Some DTYPE_VOID).
Example test_resolve_return_stmt_void_ok : got test_resolve_return_stmt_void = Some (new_srt SRT_RET_STMT []). Proof. vm_compute. reflexivity. Qed.
(** tests/resolver/test_statement.c test_resolve_expression_stmt_scalar *)
Definition test_resolve_expression_stmt_scalar := stmt_test (new_ast AST_EXPR_STMT [(new_ast AST_ASSIGN_EXPR [(new_identifier_ast AST_IDENT_EXPR [120]); (new_iliteral_ast AST_INT_EXPR (new_signed IInt 12))])]) (Some [(fun t => sym_define_memory t [120] DTYPE_INT)]) None.
Example test_resolve_expression_stmt_scalar_ok : got test_resolve_expression_stmt_scalar = Some (new_srt SRT_EXPR_STMT [(new_dtyped_srt SRT_ASSIGN_EXPR DTYPE_INT [(new_dtyped_srt SRT_ADDR_EXPR (DTYPE_POINTER DTYPE_INT) [(new_identifier_srt SRT_IDENT_EXPR DTYPE_INT [120])]); (new_iliteral_srt DTYPE_INT (new_signed IInt 12))])]). Proof. vm_compute. reflexivity. Qed.
(** tests/resolver/test_statement.c test_resolve_expression_stmt_array *)
Definition test_resolve_expression_stmt_array := stmt_test (new_ast AST_EXPR_STMT [(new_sliteral_ast AST_STRING_EXPR [101; 120; 112; 114; 101; 115; 115; 105; 111; 110; 0])]) None None.
Example test_resolve_expression_stmt_array_ok : got test_resolve_expression_stmt_array = Some (new_srt SRT_EXPR_STMT [(new_dtyped_srt SRT_ADDR_EXPR (DTYPE_POINTER DTYPE_CHAR) [(new_string_srt SRT_STR_EXPR (DTYPE_ARRAY DTYPE_CHAR 11) 0)])]). Proof. vm_compute. reflexivity. Qed.
(** tests/resolver/test_statement.c test_resolve_expression_stmt_function *)
Definition test_resolve_expression_stmt_function := stmt_test (new_ast AST_EXPR_STMT [(new_identifier_ast AST_IDENT_EXPR [102; 117; 110; 99])]) (Some [(fun t => sym_define_label t [102; 117; 110; 99] (DTYPE_FUNCTION [(Some [120], DTYPE_INT)] DTYPE_INT))]) None.
Example test_resolve_expression_stmt_function_ok : got test_resolve_expression_stmt_function = Some (new_srt SRT_EXPR_STMT [(new_dtyped_srt SRT_ADDR_EXPR (DTYPE_POINTER (DTYPE_FUNCTION [(Some [120], DTYPE_INT)] DTYPE_INT)) [(new_identifier_srt SRT_IDENT_EXPR (DTYPE_FUNCTION [(Some [120], DTYPE_INT)] DTYPE_INT) [102; 117; 110; 99])])]). Proof. vm_compute. reflexivity. Qed.
(** tests/resolver/test_statement.c test_resolve_null_stmt *)
Definition test_resolve_null_stmt := stmt_test (new_ast AST_NULL_STMT []) None None.
Example test_resolve_null_stmt_ok : got test_resolve_null_stmt = Some (new_srt SRT_NULL_STMT []). Proof. vm_compute. reflexivity. Qed.
(** tests/resolver/test_statement.c test_resolve_if_stmt *)
Definition test_resolve_if_stmt := stmt_test (new_ast AST_CMPD_STMT [(new_ast AST_IF_STMT [(new_ast AST_EQUAL_EXPR [(new_identifier_ast AST_IDENT_EXPR [120]); (new_iliteral_ast AST_INT_EXPR (new_signed IInt 0))]); (new_ast AST_EXPR_STMT [(new_ast AST_ASSIGN_EXPR [(new_identifier_ast AST_IDENT_EXPR [121]); (new_iliteral_ast AST_INT_EXPR (new_signed IInt 1))])])]); (new_ast AST_EXPR_STMT [(new_ast AST_ASSIGN_EXPR [(new_identifier_ast AST_IDENT_EXPR [121]); (new_iliteral_ast AST_INT_EXPR (new_signed IInt 2))])])]) (Some [(fun t => sym_define_memory t [120] DTYPE_INT); (fun t => sym_define_memory t [121] DTYPE_INT)]) None.
Example test_resolve_if_stmt_ok : got test_resolve_if_stmt = Some (new_srt SRT_CMPD_STMT [(new_srt SRT_IF_STMT [(new_dtyped_srt SRT_EQUAL_EXPR DTYPE_INT [(new_identifier_srt SRT_IDENT_EXPR DTYPE_INT [120]); (new_iliteral_srt DTYPE_INT (new_signed IInt 0))]); (new_srt SRT_EXPR_STMT [(new_dtyped_srt SRT_ASSIGN_EXPR DTYPE_INT [(new_dtyped_srt SRT_ADDR_EXPR (DTYPE_POINTER DTYPE_INT) [(new_identifier_srt SRT_IDENT_EXPR DTYPE_INT [121])]); (new_iliteral_srt DTYPE_INT (new_signed IInt 1))])])]); (new_srt SRT_EXPR_STMT [(new_dtyped_srt SRT_ASSIGN_EXPR DTYPE_INT [(new_dtyped_srt SRT_ADDR_EXPR (DTYPE_POINTER DTYPE_INT) [(new_identifier_srt SRT_IDENT_EXPR DTYPE_INT [121])]); (new_iliteral_srt DTYPE_INT (new_signed IInt 2))])])]). Proof. vm_compute. reflexivity. Qed.
(** tests/resolver/test_statement.c test_resolve_if_else_stmt *)
Definition test_resolve_if_else_stmt := stmt_test (new_ast AST_CMPD_STMT [(new_ast AST_IF_STMT [(new_ast AST_EQUAL_EXPR [(new_identifier_ast AST_IDENT_EXPR [120]); (new_iliteral_ast AST_INT_EXPR (new_signed IInt 0))]); (new_ast AST_CMPD_STMT [(new_ast AST_EXPR_STMT [(new_ast AST_ASSIGN_EXPR [(new_identifier_ast AST_IDENT_EXPR [121]); (new_iliteral_ast AST_INT_EXPR (new_signed IInt 1))])])]); (new_ast AST_CMPD_STMT [(new_ast AST_EXPR_STMT [(new_ast AST_ASSIGN_EXPR [(new_identifier_ast AST_IDENT_EXPR [121]); (new_iliteral_ast AST_INT_EXPR (new_signed IInt 2))])])])])]) (Some [(fun t => sym_define_memory t [120] DTYPE_INT); (fun t => sym_define_memory t [121] DTYPE_INT)]) None.
Example test_resolve_if_else_stmt_ok : got test_resolve_if_else_stmt = Some (new_srt SRT_CMPD_STMT [(new_srt SRT_IF_STMT [(new_dtyped_srt SRT_EQUAL_EXPR DTYPE_INT [(new_identifier_srt SRT_IDENT_EXPR DTYPE_INT [120]); (new_iliteral_srt DTYPE_INT (new_signed IInt 0))]); (new_srt SRT_CMPD_STMT [(new_srt SRT_EXPR_STMT [(new_dtyped_srt SRT_ASSIGN_EXPR DTYPE_INT [(new_dtyped_srt SRT_ADDR_EXPR (DTYPE_POINTER DTYPE_INT) [(new_identifier_srt SRT_IDENT_EXPR DTYPE_INT [121])]); (new_iliteral_srt DTYPE_INT (new_signed IInt 1))])])]); (new_srt SRT_CMPD_STMT [(new_srt SRT_EXPR_STMT [(new_dtyped_srt SRT_ASSIGN_EXPR DTYPE_INT [(new_dtyped_srt SRT_ADDR_EXPR (DTYPE_POINTER DTYPE_INT) [(new_identifier_srt SRT_IDENT_EXPR DTYPE_INT [121])]); (new_iliteral_srt DTYPE_INT (new_signed IInt 2))])])])])]). Proof. vm_compute. reflexivity. Qed.
(** tests/resolver/test_statement.c test_resolve_if_else_stmt_chain *)
Definition test_resolve_if_else_stmt_chain := stmt_test (new_ast AST_IF_STMT [(new_ast AST_LESS_EXPR [(new_identifier_ast AST_IDENT_EXPR [120]); (new_iliteral_ast AST_INT_EXPR (new_signed IInt 0))]); (new_ast AST_CMPD_STMT [(new_ast AST_EXPR_STMT [(new_ast AST_ASSIGN_EXPR [(new_identifier_ast AST_IDENT_EXPR [121]); (new_ast AST_NEG_EXPR [(new_identifier_ast AST_IDENT_EXPR [120])])])])]); (new_ast AST_IF_STMT [(new_ast AST_GREATER_EXPR [(new_identifier_ast AST_IDENT_EXPR [120]); (new_iliteral_ast AST_INT_EXPR (new_signed IInt 0))]); (new_ast AST_CMPD_STMT [(new_ast AST_EXPR_STMT [(new_ast AST_ASSIGN_EXPR [(new_identifier_ast AST_IDENT_EXPR [121]); (new_identifier_ast AST_IDENT_EXPR [120])])])]); (new_ast AST_CMPD_STMT [(new_ast AST_EXPR_STMT [(new_ast AST_ASSIGN_EXPR [(new_identifier_ast AST_IDENT_EXPR [121]); (new_iliteral_ast AST_INT_EXPR (new_signed IInt 0))])])])])]) (Some [(fun t => sym_define_memory t [120] DTYPE_INT); (fun t => sym_define_memory t [121] DTYPE_INT)]) None.
Example test_resolve_if_else_stmt_chain_ok : got test_resolve_if_else_stmt_chain = Some (new_srt SRT_IF_STMT [(new_dtyped_srt SRT_LESS_EXPR DTYPE_INT [(new_identifier_srt SRT_IDENT_EXPR DTYPE_INT [120]); (new_iliteral_srt DTYPE_INT (new_signed IInt 0))]); (new_srt SRT_CMPD_STMT [(new_srt SRT_EXPR_STMT [(new_dtyped_srt SRT_ASSIGN_EXPR DTYPE_INT [(new_dtyped_srt SRT_ADDR_EXPR (DTYPE_POINTER DTYPE_INT) [(new_identifier_srt SRT_IDENT_EXPR DTYPE_INT [121])]); (new_dtyped_srt SRT_NEG_EXPR DTYPE_INT [(new_identifier_srt SRT_IDENT_EXPR DTYPE_INT [120])])])])]); (new_srt SRT_IF_STMT [(new_dtyped_srt SRT_GREATER_EXPR DTYPE_INT [(new_identifier_srt SRT_IDENT_EXPR DTYPE_INT [120]); (new_iliteral_srt DTYPE_INT (new_signed IInt 0))]); (new_srt SRT_CMPD_STMT [(new_srt SRT_EXPR_STMT [(new_dtyped_srt SRT_ASSIGN_EXPR DTYPE_INT [(new_dtyped_srt SRT_ADDR_EXPR (DTYPE_POINTER DTYPE_INT) [(new_identifier_srt SRT_IDENT_EXPR DTYPE_INT [121])]); (new_identifier_srt SRT_IDENT_EXPR DTYPE_INT [120])])])]); (new_srt SRT_CMPD_STMT [(new_srt SRT_EXPR_STMT [(new_dtyped_srt SRT_ASSIGN_EXPR DTYPE_INT [(new_dtyped_srt SRT_ADDR_EXPR (DTYPE_POINTER DTYPE_INT) [(new_identifier_srt SRT_IDENT_EXPR DTYPE_INT [121])]); (new_iliteral_srt DTYPE_INT (new_signed IInt 0))])])])])]). Proof. vm_compute. reflexivity. Qed.
(** tests/resolver/test_statement.c test_resolve_switch_stmt_int_iliteral *)
Definition test_resolve_switch_stmt_int_iliteral := stmt_test (new_ast AST_SWITCH_STMT [(new_identifier_ast AST_IDENT_EXPR [120]); (new_ast AST_CMPD_STMT [(new_ast AST_CASE_STMT [(new_iliteral_ast AST_INT_EXPR (new_signed IInt 0)); (new_ast AST_EXPR_STMT [(new_ast AST_ASSIGN_EXPR [(new_identifier_ast AST_IDENT_EXPR [121]); (new_iliteral_ast AST_INT_EXPR (new_signed IInt 1))])])]); (new_ast AST_BREAK_STMT []); (new_ast AST_CASE_STMT [(new_iliteral_ast AST_INT_EXPR (new_signed IInt 1)); (new_ast AST_EXPR_STMT [(new_ast AST_ASSIGN_EXPR [(new_identifier_ast AST_IDENT_EXPR [121]); (new_iliteral_ast AST_INT_EXPR (new_signed IInt 2))])])]); (new_ast AST_BREAK_STMT []); (new_ast AST_DEFAULT_STMT [(new_ast AST_EXPR_STMT [(new_ast AST_ASSIGN_EXPR [(new_identifier_ast AST_IDENT_EXPR [121]); (new_iliteral_ast AST_INT_EXPR (new_signed IInt 9))])])]); (new_ast AST_BREAK_STMT [])])]) (Some [(fun t => sym_define_memory t [120] DTYPE_INT); (fun t => sym_define_memory t [121] DTYPE_INT)]) None.
Example test_resolve_switch_stmt_int_iliteral_ok : got test_resolve_switch_stmt_int_iliteral = Some (new_srt SRT_SWITCH_STMT [(new_identifier_srt SRT_IDENT_EXPR DTYPE_INT [120]); (new_srt SRT_CMPD_STMT [(new_srt SRT_CASE_STMT [(new_iliteral_srt DTYPE_INT (new_signed IInt 0)); (new_srt SRT_EXPR_STMT [(new_dtyped_srt SRT_ASSIGN_EXPR DTYPE_INT [(new_dtyped_srt SRT_ADDR_EXPR (DTYPE_POINTER DTYPE_INT) [(new_identifier_srt SRT_IDENT_EXPR DTYPE_INT [121])]); (new_iliteral_srt DTYPE_INT (new_signed IInt 1))])])]); (new_srt SRT_BREAK_STMT []); (new_srt SRT_CASE_STMT [(new_iliteral_srt DTYPE_INT (new_signed IInt 1)); (new_srt SRT_EXPR_STMT [(new_dtyped_srt SRT_ASSIGN_EXPR DTYPE_INT [(new_dtyped_srt SRT_ADDR_EXPR (DTYPE_POINTER DTYPE_INT) [(new_identifier_srt SRT_IDENT_EXPR DTYPE_INT [121])]); (new_iliteral_srt DTYPE_INT (new_signed IInt 2))])])]); (new_srt SRT_BREAK_STMT []); (new_srt SRT_DEFAULT_STMT [(new_srt SRT_EXPR_STMT [(new_dtyped_srt SRT_ASSIGN_EXPR DTYPE_INT [(new_dtyped_srt SRT_ADDR_EXPR (DTYPE_POINTER DTYPE_INT) [(new_identifier_srt SRT_IDENT_EXPR DTYPE_INT [121])]); (new_iliteral_srt DTYPE_INT (new_signed IInt 9))])])]); (new_srt SRT_BREAK_STMT [])])]). Proof. vm_compute. reflexivity. Qed.
(** tests/resolver/test_statement.c test_resolve_switch_stmt_various_iliteral *)
Definition test_resolve_switch_stmt_various_iliteral := stmt_test (new_ast AST_SWITCH_STMT [(new_identifier_ast AST_IDENT_EXPR [120]); (new_ast AST_CMPD_STMT [(new_ast AST_CASE_STMT [(new_iliteral_ast AST_INT_EXPR (new_signed ILong 0)); (new_ast AST_EXPR_STMT [(new_ast AST_ASSIGN_EXPR [(new_identifier_ast AST_IDENT_EXPR [121]); (new_iliteral_ast AST_INT_EXPR (new_signed IInt 1))])])]); (new_ast AST_BREAK_STMT []); (new_ast AST_DEFAULT_STMT [(new_ast AST_EXPR_STMT [(new_ast AST_ASSIGN_EXPR [(new_identifier_ast AST_IDENT_EXPR [121]); (new_iliteral_ast AST_INT_EXPR (new_signed IInt 9))])])]); (new_ast AST_BREAK_STMT []); (new_ast AST_CASE_STMT [(new_iliteral_ast AST_INT_EXPR (new_signed ILongLong 1)); (new_ast AST_EXPR_STMT [(new_ast AST_ASSIGN_EXPR [(new_identifier_ast AST_IDENT_EXPR [121]); (new_iliteral_ast AST_INT_EXPR (new_signed IInt 2))])])]); (new_ast AST_BREAK_STMT []); (new_ast AST_CASE_STMT [(new_iliteral_ast AST_INT_EXPR (new_signed IInt 2)); (new_ast AST_EXPR_STMT [(new_ast AST_ASSIGN_EXPR [(new_identifier_ast AST_IDENT_EXPR [121]); (new_iliteral_ast AST_INT_EXPR (new_signed IInt 3))])])]); (new_ast AST_BREAK_STMT [])])]) (Some [(fun t => sym_define_memory t [120] DTYPE_CHAR); (fun t => sym_define_memory t [121] DTYPE_INT)]) None.
Example test_resolve_switch_stmt_various_iliteral_ok : got test_resolve_switch_stmt_various_iliteral = Some (new_srt SRT_SWITCH_STMT [(new_dtyped_srt SRT_CAST_EXPR DTYPE_INT [(new_identifier_srt SRT_IDENT_EXPR DTYPE_CHAR [120])]); (new_srt SRT_CMPD_STMT [(new_srt SRT_CASE_STMT [(new_iliteral_srt DTYPE_LONG (new_signed ILong 0)); (new_srt SRT_EXPR_STMT [(new_dtyped_srt SRT_ASSIGN_EXPR DTYPE_INT [(new_dtyped_srt SRT_ADDR_EXPR (DTYPE_POINTER DTYPE_INT) [(new_identifier_srt SRT_IDENT_EXPR DTYPE_INT [121])]); (new_iliteral_srt DTYPE_INT (new_signed IInt 1))])])]); (new_srt SRT_BREAK_STMT []); (new_srt SRT_DEFAULT_STMT [(new_srt SRT_EXPR_STMT [(new_dtyped_srt SRT_ASSIGN_EXPR DTYPE_INT [(new_dtyped_srt SRT_ADDR_EXPR (DTYPE_POINTER DTYPE_INT) [(new_identifier_srt SRT_IDENT_EXPR DTYPE_INT [121])]); (new_iliteral_srt DTYPE_INT (new_signed IInt 9))])])]); (new_srt SRT_BREAK_STMT []); (new_srt SRT_CASE_STMT [(new_iliteral_srt DTYPE_LONGLONG (new_signed ILongLong 1)); (new_srt SRT_EXPR_STMT [(new_dtyped_srt SRT_ASSIGN_EXPR DTYPE_INT [(new_dtyped_srt SRT_ADDR_EXPR (DTYPE_POINTER DTYPE_INT) [(new_identifier_srt SRT_IDENT_EXPR DTYPE_INT [121])]); (new_iliteral_srt DTYPE_INT (new_signed IInt 2))])])]); (new_srt SRT_BREAK_STMT []); (new_srt SRT_CASE_STMT [(new_iliteral_srt DTYPE_INT (new_signed IInt 2)); (new_srt SRT_EXPR_STMT [(new_dtyped_srt SRT_ASSIGN_EXPR DTYPE_INT [(new_dtyped_srt SRT_ADDR_EXPR (DTYPE_POINTER DTYPE_INT) [(new_identifier_srt SRT_IDENT_EXPR DTYPE_INT [121])]); (new_iliteral_srt DTYPE_INT (new_signed IInt 3))])])]); (new_srt SRT_BREAK_STMT [])])]). Proof. vm_compute. reflexivity. Qed.
(** tests/resolver/test_statement.c test_resolve_switch_stmt_enum *)
Definition test_resolve_switch_stmt_enum := stmt_test (new_ast AST_SWITCH_STMT [(new_identifier_ast AST_IDENT_EXPR [120]); (new_ast AST_CMPD_STMT [(new_ast AST_CASE_STMT [(new_identifier_ast AST_IDENT_EXPR [65]); (new_ast AST_EXPR_STMT [(new_ast AST_ASSIGN_EXPR [(new_identifier_ast AST_IDENT_EXPR [121]); (new_iliteral_ast AST_INT_EXPR (new_signed IInt 1))])])]); (new_ast AST_BREAK_STMT []); (new_ast AST_CASE_STMT [(new_identifier_ast AST_IDENT_EXPR [66]); (new_ast AST_EXPR_STMT [(new_ast AST_ASSIGN_EXPR [(new_identifier_ast AST_IDENT_EXPR [121]); (new_iliteral_ast AST_INT_EXPR (new_signed IInt 2))])])]); (new_ast AST_BREAK_STMT []); (new_ast AST_DEFAULT_STMT [(new_ast AST_EXPR_STMT [(new_ast AST_ASSIGN_EXPR [(new_identifier_ast AST_IDENT_EXPR [121]); (new_iliteral_ast AST_INT_EXPR (new_signed IInt 9))])])]); (new_ast AST_BREAK_STMT [])])]) (Some [(fun t => sym_define_memory t [120] DTYPE_INT); (fun t => sym_define_memory t [121] DTYPE_INT); (fun t => sym_define_integer t [65] DTYPE_INT (new_signed IInt 0)); (fun t => sym_define_integer t [66] DTYPE_INT (new_signed IInt 1)); (fun t => sym_define_integer t [67] DTYPE_INT (new_signed IInt 2)); (fun t => sym_define_integer t [68] DTYPE_INT (new_signed IInt 3))]) None.
Example test_resolve_switch_stmt_enum_ok : got test_resolve_switch_stmt_enum = Some (new_srt SRT_SWITCH_STMT [(new_identifier_srt SRT_IDENT_EXPR DTYPE_INT [120]); (new_srt SRT_CMPD_STMT [(new_srt SRT_CASE_STMT [(new_iliteral_srt DTYPE_INT (new_signed IInt 0)); (new_srt SRT_EXPR_STMT [(new_dtyped_srt SRT_ASSIGN_EXPR DTYPE_INT [(new_dtyped_srt SRT_ADDR_EXPR (DTYPE_POINTER DTYPE_INT) [(new_identifier_srt SRT_IDENT_EXPR DTYPE_INT [121])]); (new_iliteral_srt DTYPE_INT (new_signed IInt 1))])])]); (new_srt SRT_BREAK_STMT []); (new_srt SRT_CASE_STMT [(new_iliteral_srt DTYPE_INT (new_signed IInt 1)); (new_srt SRT_EXPR_STMT [(new_dtyped_srt SRT_ASSIGN_EXPR DTYPE_INT [(new_dtyped_srt SRT_ADDR_EXPR (DTYPE_POINTER DTYPE_INT) [(new_identifier_srt SRT_IDENT_EXPR DTYPE_INT [121])]); (new_iliteral_srt DTYPE_INT (new_signed IInt 2))])])]); (new_srt SRT_BREAK_STMT []); (new_srt SRT_DEFAULT_STMT [(new_srt SRT_EXPR_STMT [(new_dtyped_srt SRT_ASSIGN_EXPR DTYPE_INT [(new_dtyped_srt SRT_ADDR_EXPR (DTYPE_POINTER DTYPE_INT) [(new_identifier_srt SRT_IDENT_EXPR DTYPE_INT [121])]); (new_iliteral_srt DTYPE_INT (new_signed IInt 9))])])]); (new_srt SRT_BREAK_STMT [])])]). Proof. vm_compute. reflexivity. Qed.
(** tests/resolver/test_statement.c test_resolve_while_stmt *)
Definition test_resolve_while_stmt := stmt_test (new_ast AST_WHILE_STMT [(new_ast AST_LESS_EXPR [(new_identifier_ast AST_IDENT_EXPR [120]); (new_iliteral_ast AST_INT_EXPR (new_signed IInt 10))]); (new_ast AST_CMPD_STMT [(new_ast AST_EXPR_STMT [(new_ast AST_ASSIGN_EXPR [(new_identifier_ast AST_IDENT_EXPR [120]); (new_ast AST_ADD_EXPR [(new_identifier_ast AST_IDENT_EXPR [120]); (new_iliteral_ast AST_INT_EXPR (new_signed IInt 1))])])]); (new_ast AST_EXPR_STMT [(new_ast AST_ASSIGN_EXPR [(new_identifier_ast AST_IDENT_EXPR [121]); (new_ast AST_MUL_EXPR [(new_iliteral_ast AST_INT_EXPR (new_signed IInt 2)); (new_identifier_ast AST_IDENT_EXPR [121])])])])])]) (Some [(fun t => sym_define_memory t [120] DTYPE_INT); (fun t => sym_define_memory t [121] DTYPE_INT)]) None.
Example test_resolve_while_stmt_ok : got test_resolve_while_stmt = Some (new_srt SRT_WHILE_STMT [(new_dtyped_srt SRT_LESS_EXPR DTYPE_INT [(new_identifier_srt SRT_IDENT_EXPR DTYPE_INT [120]); (new_iliteral_srt DTYPE_INT (new_signed IInt 10))]); (new_srt SRT_CMPD_STMT [(new_srt SRT_EXPR_STMT [(new_dtyped_srt SRT_ASSIGN_EXPR DTYPE_INT [(new_dtyped_srt SRT_ADDR_EXPR (DTYPE_POINTER DTYPE_INT) [(new_identifier_srt SRT_IDENT_EXPR DTYPE_INT [120])]); (new_dtyped_srt SRT_ADD_EXPR DTYPE_INT [(new_identifier_srt SRT_IDENT_EXPR DTYPE_INT [120]); (new_iliteral_srt DTYPE_INT (new_signed IInt 1))])])]); (new_srt SRT_EXPR_STMT [(new_dtyped_srt SRT_ASSIGN_EXPR DTYPE_INT [(new_dtyped_srt SRT_ADDR_EXPR (DTYPE_POINTER DTYPE_INT) [(new_identifier_srt SRT_IDENT_EXPR DTYPE_INT [121])]); (new_dtyped_srt SRT_MUL_EXPR DTYPE_INT [(new_iliteral_srt DTYPE_INT (new_signed IInt 2)); (new_identifier_srt SRT_IDENT_EXPR DTYPE_INT [121])])])])])]). Proof. vm_compute. reflexivity. Qed.
(** tests/resolver/test_statement.c test_resolve_for_stmt_init_declaration *)
Definition test_resolve_for_stmt_init_declaration := stmt_test (new_ast AST_FOR_STMT [(new_ast AST_DECL [(new_ast AST_DECL_SPECS [(new_ast AST_TYPE_INT [])]); (new_ast AST_INIT_DECLOR_LIST [(new_ast AST_INIT_DECLOR [(new_identifier_ast AST_IDENT_DECLOR [105]); (new_iliteral_ast AST_INT_EXPR (new_signed IInt 0))])])]); (new_ast AST_EXPR_STMT [(new_ast AST_LESS_EXPR [(new_identifier_ast AST_IDENT_EXPR [105]); (new_iliteral_ast AST_INT_EXPR (new_signed IInt 10))])]); (new_ast AST_EXPR_STMT [(new_ast AST_POSTINC_EXPR [(new_identifier_ast AST_IDENT_EXPR [105])])]); (new_ast AST_CMPD_STMT [(new_ast AST_EXPR_STMT [(new_ast AST_MUL_ASSIGN_EXPR [(new_identifier_ast AST_IDENT_EXPR [120]); (new_iliteral_ast AST_INT_EXPR (new_signed IInt 2))])])])]) (Some [(fun t => sym_define_memory t [120] DTYPE_INT)]) None.
Example test_resolve_for_stmt_init_declaration_ok : got test_resolve_for_stmt_init_declaration = Some (new_srt SRT_FOR_STMT [(new_srt SRT_DECL_LIST [(new_srt SRT_INIT_DECL [(new_identifier_srt SRT_IDENT_DECL DTYPE_INT [105]); (new_srt SRT_INIT [(new_iliteral_srt DTYPE_INT (new_signed IInt 0))])])]); (new_srt SRT_EXPR_STMT [(new_dtyped_srt SRT_LESS_EXPR DTYPE_INT [(new_identifier_srt SRT_IDENT_EXPR DTYPE_INT [105]); (new_iliteral_srt DTYPE_INT (new_signed IInt 10))])]); (new_srt SRT_EXPR_STMT [(new_dtyped_srt SRT_POSTINC_EXPR DTYPE_INT [(new_dtyped_srt SRT_ADDR_EXPR (DTYPE_POINTER DTYPE_INT) [(new_identifier_srt SRT_IDENT_EXPR DTYPE_INT [105])])])]); (new_srt SRT_CMPD_STMT [(new_srt SRT_EXPR_STMT [(new_dtyped_srt SRT_ASSIGN_EXPR DTYPE_INT [(new_dtyped_srt SRT_ADDR_EXPR (DTYPE_POINTER DTYPE_INT) [(new_identifier_srt SRT_IDENT_EXPR DTYPE_INT [120])]); (new_dtyped_srt SRT_MUL_EXPR DTYPE_INT [(new_identifier_srt SRT_IDENT_EXPR DTYPE_INT [120]); (new_iliteral_srt DTYPE_INT (new_signed IInt 2))])])])])]). Proof. vm_compute. reflexivity. Qed.
(** tests/resolver/test_statement.c test_resolve_for_stmt_init_expression *)
Definition test_resolve_for_stmt_init_expression := stmt_test (new_ast AST_FOR_STMT [(new_ast AST_EXPR_STMT [(new_ast AST_ASSIGN_EXPR [(new_identifier_ast AST_IDENT_EXPR [105]); (new_identifier_ast AST_IDENT_EXPR [110])])]); (new_ast AST_EXPR_STMT [(new_ast AST_GREATER_EXPR [(new_identifier_ast AST_IDENT_EXPR [105]); (new_iliteral_ast AST_INT_EXPR (new_signed IInt 0))])]); (new_ast AST_EXPR_STMT [(new_ast AST_POSTDEC_EXPR [(new_identifier_ast AST_IDENT_EXPR [105])])]); (new_ast AST_CMPD_STMT [(new_ast AST_EXPR_STMT [(new_ast AST_DIV_ASSIGN_EXPR [(new_identifier_ast AST_IDENT_EXPR [120]); (new_iliteral_ast AST_INT_EXPR (new_signed IInt 2))])])])]) (Some [(fun t => sym_define_memory t [105] DTYPE_INT); (fun t => sym_define_memory t [110] DTYPE_INT); (fun t => sym_define_memory t [120] DTYPE_INT)]) None.
Example test_resolve_for_stmt_init_expression_ok : got test_resolve_for_stmt_init_expression = Some (new_srt SRT_FOR_STMT [(new_srt SRT_EXPR_STMT [(new_dtyped_srt SRT_ASSIGN_EXPR DTYPE_INT [(new_dtyped_srt SRT_ADDR_EXPR (DTYPE_POINTER DTYPE_INT) [(new_identifier_srt SRT_IDENT_EXPR DTYPE_INT [105])]); (new_identifier_srt SRT_IDENT_EXPR DTYPE_INT [110])])]); (new_srt SRT_EXPR_STMT [(new_dtyped_srt SRT_GREATER_EXPR DTYPE_INT [(new_identifier_srt SRT_IDENT_EXPR DTYPE_INT [105]); (new_iliteral_srt DTYPE_INT (new_signed IInt 0))])]); (new_srt SRT_EXPR_STMT [(new_dtyped_srt SRT_POSTDEC_EXPR DTYPE_INT [(new_dtyped_srt SRT_ADDR_EXPR (DTYPE_POINTER DTYPE_INT) [(new_identifier_srt SRT_IDENT_EXPR DTYPE_INT [105])])])]); (new_srt SRT_CMPD_STMT [(new_srt SRT_EXPR_STMT [(new_dtyped_srt SRT_ASSIGN_EXPR DTYPE_INT [(new_dtyped_srt SRT_ADDR_EXPR (DTYPE_POINTER DTYPE_INT) [(new_identifier_srt SRT_IDENT_EXPR DTYPE_INT [120])]); (new_dtyped_srt SRT_DIV_EXPR DTYPE_INT [(new_identifier_srt SRT_IDENT_EXPR DTYPE_INT [120]); (new_iliteral_srt DTYPE_INT (new_signed IInt 2))])])])])]). Proof. vm_compute. reflexivity. Qed.
(** tests/resolver/test_statement.c test_resolve_for_stmt_init_null *)
Definition test_resolve_for_stmt_init_null := stmt_test (new_ast AST_FOR_STMT [(new_ast AST_NULL_STMT []); (new_ast AST_EXPR_STMT [(new_ast AST_LESS_EXPR [(new_identifier_ast AST_IDENT_EXPR [105]); (new_iliteral_ast AST_INT_EXPR (new_signed IInt 10))])]); (new_ast AST_EXPR_STMT [(new_ast AST_POSTINC_EXPR [(new_identifier_ast AST_IDENT_EXPR [105])])]); (new_ast AST_CMPD_STMT [])]) (Some [(fun t => sym_define_memory t [105] DTYPE_INT)]) None.
Example test_resolve_for_stmt_init_null_ok : got test_resolve_for_stmt_init_null = Some (new_srt SRT_FOR_STMT [(new_srt SRT_NULL_STMT []); (new_srt SRT_EXPR_STMT [(new_dtyped_srt SRT_LESS_EXPR DTYPE_INT [(new_identifier_srt SRT_IDENT_EXPR DTYPE_INT [105]); (new_iliteral_srt DTYPE_INT (new_signed IInt 10))])]); (new_srt SRT_EXPR_STMT [(new_dtyped_srt SRT_POSTINC_EXPR DTYPE_INT [(new_dtyped_srt SRT_ADDR_EXPR (DTYPE_POINTER DTYPE_INT) [(new_identifier_srt SRT_IDENT_EXPR DTYPE_INT [105])])])]); (new_srt SRT_CMPD_STMT [])]). Proof. vm_compute. reflexivity. Qed.
(** tests/resolver/test_statement.c test_resolve_for_stmt_condition_null *)
Definition test_resolve_for_stmt_condition_null := stmt_test (new_ast AST_FOR_STMT [(new_ast AST_EXPR_STMT [(new_ast AST_ASSIGN_EXPR [(new_identifier_ast AST_IDENT_EXPR [105]); (new_iliteral_ast AST_INT_EXPR (new_signed IInt 0))])]); (new_ast AST_NULL_STMT []); (new_ast AST_EXPR_STMT [(new_ast AST_POSTINC_EXPR [(new_identifier_ast AST_IDENT_EXPR [105])])]); (new_ast AST_CMPD_STMT [])]) (Some [(fun t => sym_define_memory t [105] DTYPE_INT)]) None.
Example test_resolve_for_stmt_condition_null_ok : got test_resolve_for_stmt_condition_null = Some (new_srt SRT_FOR_STMT [(new_srt SRT_EXPR_STMT [(new_dtyped_srt SRT_ASSIGN_EXPR DTYPE_INT [(new_dtyped_srt SRT_ADDR_EXPR (DTYPE_POINTER DTYPE_INT) [(new_identifier_srt SRT_IDENT_EXPR DTYPE_INT [105])]); (new_iliteral_srt DTYPE_INT (new_signed IInt 0))])]); (new_srt SRT_NULL_STMT []); (new_srt SRT_EXPR_STMT [(new_dtyped_srt SRT_POSTINC_EXPR DTYPE_INT [(new_dtyped_srt SRT_ADDR_EXPR (DTYPE_POINTER DTYPE_INT) [(new_identifier_srt SRT_IDENT_EXPR DTYPE_INT [105])])])]); (new_srt SRT_CMPD_STMT [])]). Proof. vm_compute. reflexivity. Qed.
(** tests/resolver/test_statement.c test_resolve_for_stmt_expression_null *)
Definition test_resolve_for_stmt_expression_null := stmt_test (new_ast AST_FOR_STMT [(new_ast AST_EXPR_STMT [(new_ast AST_ASSIGN_EXPR [(new_identifier_ast AST_IDENT_EXPR [105]); (new_iliteral_ast AST_INT_EXPR (new_signed IInt 0))])]); (new_ast AST_EXPR_STMT [(new_ast AST_LESS_EXPR [(new_identifier_ast AST_IDENT_EXPR [105]); (new_iliteral_ast AST_INT_EXPR (new_signed IInt 10))])]); (new_ast AST_NULL_STMT []); (new_ast AST_CMPD_STMT [])]) (Some [(fun t => sym_define_memory t [105] DTYPE_INT)]) None.
Example test_resolve_for_stmt_expression_null_ok : got test_resolve_for_stmt_expression_null = Some (new_srt SRT_FOR_STMT [(new_srt SRT_EXPR_STMT [(new_dtyped_srt SRT_ASSIGN_EXPR DTYPE_INT [(new_dtyped_srt SRT_ADDR_EXPR (DTYPE_POINTER DTYPE_INT) [(new_identifier_srt SRT_IDENT_EXPR DTYPE_INT [105])]); (new_iliteral_srt DTYPE_INT (new_signed IInt 0))])]); (new_srt SRT_EXPR_STMT [(new_dtyped_srt SRT_LESS_EXPR DTYPE_INT [(new_identifier_srt SRT_IDENT_EXPR DTYPE_INT [105]); (new_iliteral_srt DTYPE_INT (new_signed IInt 10))])]); (new_srt SRT_NULL_STMT []); (new_srt SRT_CMPD_STMT [])]). Proof. vm_compute. reflexivity. Qed.
(** tests/resolver/test_statement.c test_resolve_for_stmt_all_null *)
Definition test_resolve_for_stmt_all_null := stmt_test (new_ast AST_FOR_STMT [(new_ast AST_NULL_STMT []); (new_ast AST_NULL_STMT []); (new_ast AST_NULL_STMT []); (new_ast AST_CMPD_STMT [])]) None None.
Example test_resolve_for_stmt_all_null_ok : got test_resolve_for_stmt_all_null = Some (new_srt SRT_FOR_STMT [(new_srt SRT_NULL_STMT []); (new_srt SRT_NULL_STMT []); (new_srt SRT_NULL_STMT []); (new_srt SRT_CMPD_STMT [])]). Proof. vm_compute. reflexivity. Qed.
(** tests/resolver/test_statement_error.c test_resolve_case_stmt_error_outside_switch *)
Definition test_resolve_case_stmt_error_outside_switch := stmt_test (new_ast AST_CASE_STMT [(new_iliteral_ast AST_INT_EXPR (new_signed IInt 1)); (new_ast AST_EXPR_STMT [(new_ast AST_ASSIGN_EXPR [(new_identifier_ast AST_IDENT_EXPR [120]); (new_iliteral_ast AST_INT_EXPR (new_signed IInt 1))])])]) (Some [(fun t => sym_define_memory t [120] DTYPE_INT)]) None.
Example test_resolve_case_stmt_error_outside_switch_ok : errs test_resolve_case_stmt_error_outside_switch = true. Proof. vm_compute. reflexivity. Qed.
(** tests/resolver/test_statement_error.c test_resolve_case_stmt_error_label *)
Definition test_resolve_case_stmt_error_label := stmt_test (new_ast AST_SWITCH_STMT [(new_identifier_ast AST_IDENT_EXPR [120]); (new_ast AST_CASE_STMT [(new_identifier_ast AST_IDENT_EXPR [85; 78; 75; 78; 79; 87; 78]); (new_ast AST_EXPR_STMT [(new_ast AST_ASSIGN_EXPR [(new_identifier_ast AST_IDENT_EXPR [121]); (new_iliteral_ast AST_INT_EXPR (new_signed IInt 1))])])])]) (Some [(fun t => sym_define_memory t [120] DTYPE_INT); (fun t => sym_define_memory t [121] DTYPE_INT)]) None.
Example test_resolve_case_stmt_error_label_ok : errs test_resolve_case_stmt_error_label = true. Proof. vm_compute. reflexivity. Qed.
(** tests/resolver/test_statement_error.c test_resolve_case_stmt_error_limitation *)
Definition test_resolve_case_stmt_error_limitation := stmt_test (new_ast AST_SWITCH_STMT [(new_identifier_ast AST_IDENT_EXPR [120]); (new_ast AST_CASE_STMT [(new_ast AST_ADD_EXPR [(new_iliteral_ast AST_INT_EXPR (new_signed IInt 1)); (new_iliteral_ast AST_INT_EXPR (new_signed IInt 2))]); (new_ast AST_EXPR_STMT [(new_ast AST_ASSIGN_EXPR [(new_identifier_ast AST_IDENT_EXPR [121]); (new_iliteral_ast AST_INT_EXPR (new_signed IInt 1))])])])]) (Some [(fun t => sym_define_memory t [120] DTYPE_INT); (fun t => sym_define_memory t [121] DTYPE_INT)]) None.
Example test_resolve_case_stmt_error_limitation_ok : errs test_resolve_case_stmt_error_limitation = true. Proof. vm_compute. reflexivity. Qed.
(** tests/resolver/test_statement_error.c test_resolve_case_stmt_error_duplicated *)
Definition test_resolve_case_stmt_error_duplicated := stmt_test (new_ast AST_SWITCH_STMT [(new_identifier_ast AST_IDENT_EXPR [120]); (new_ast AST_CMPD_STMT [(new_ast AST_CASE_STMT [(new_iliteral_ast AST_INT_EXPR (new_signed IInt 1)); (new_ast AST_EXPR_STMT [(new_ast AST_ASSIGN_EXPR [(new_identifier_ast AST_IDENT_EXPR [121]); (new_iliteral_ast AST_INT_EXPR (new_signed IInt 1))])])]); (new_ast AST_DEFAULT_STMT [(new_ast AST_EXPR_STMT [(new_ast AST_ASSIGN_EXPR [(new_identifier_ast AST_IDENT_EXPR [121]); (new_iliteral_ast AST_INT_EXPR (new_signed IInt 9))])])]); (new_ast AST_CASE_STMT [(new_iliteral_ast AST_INT_EXPR (new_signed IInt 1)); (new_ast AST_EXPR_STMT [(new_ast AST_ASSIGN_EXPR [(new_identifier_ast AST_IDENT_EXPR [121]); (new_iliteral_ast AST_INT_EXPR (new_signed IInt 2))])])])])]) (Some [(fun t => sym_define_memory t [120] DTYPE_INT); (fun t => sym_define_memory t [121] DTYPE_INT)]) None.
Example test_resolve_case_stmt_error_duplicated_ok : errs test_resolve_case_stmt_error_duplicated = true. Proof. vm_compute. reflexivity. Qed.
(** tests/resolver/test_statement_error.c test_resolve_case_stmt_error_child *)
Definition test_resolve_case_stmt_error_child := stmt_test (new_ast AST_SWITCH_STMT [(new_identifier_ast AST_IDENT_EXPR [120]); (new_ast AST_CMPD_STMT [(new_ast AST_CASE_STMT [(new_iliteral_ast AST_INT_EXPR (new_signed IInt 1)); (new_ast AST_EXPR_STMT [(new_ast AST_PREINC_EXPR [(new_identifier_ast AST_IDENT_EXPR [121])])])])])]) (Some [(fun t => sym_define_memory t [120] DTYPE_INT)]) None.
Example test_resolve_case_stmt_error_child_ok : errs test_resolve_case_stmt_error_child = true. Proof. vm_compute. reflexivity. Qed.
(** tests/resolver/test_statement_error.c test_resolve_default_stmt_error_outside_switch *)
Definition test_resolve_default_stmt_error_outside_switch := stmt_test (new_ast AST_CMPD_STMT [(new_ast AST_SWITCH_STMT [(new_identifier_ast AST_IDENT_EXPR [120]); (new_ast AST_DEFAULT_STMT [(new_ast AST_EXPR_STMT [(new_ast AST_ASSIGN_EXPR [(new_identifier_ast AST_IDENT_EXPR [121]); (new_iliteral_ast AST_INT_EXPR (new_signed IInt 1))])])])]); (new_ast AST_DEFAULT_STMT [(new_ast AST_EXPR_STMT [(new_ast AST_ASSIGN_EXPR [(new_identifier_ast AST_IDENT_EXPR [122]); (new_iliteral_ast AST_INT_EXPR (new_signed IInt 9))])])])]) (Some [(fun t => sym_define_memory t [120] DTYPE_INT); (fun t => sym_define_memory t [121] DTYPE_INT); (fun t => sym_define_memory t [122] DTYPE_INT)]) None.
Example test_resolve_default_stmt_error_outside_switch_ok : errs test_resolve_default_stmt_error_outside_switch = true. Proof. vm_compute. reflexivity. Qed.
(** tests/resolver/test_statement_error.c test_resolve_default_stmt_error_duplicated *)
Definition test_resolve_default_stmt_error_duplicated := stmt_test (new_ast AST_SWITCH_STMT [(new_identifier_ast AST_IDENT_EXPR [120]); (new_ast AST_CMPD_STMT [(new_ast AST_DEFAULT_STMT [(new_ast AST_EXPR_STMT [(new_ast AST_ASSIGN_EXPR [(new_identifier_ast AST_IDENT_EXPR [121]); (new_iliteral_ast AST_INT_EXPR (new_signed IInt 9))])])]); (new_ast AST_DEFAULT_STMT [(new_ast AST_EXPR_STMT [(new_ast AST_ASSIGN_EXPR [(new_identifier_ast AST_IDENT_EXPR [121]); (new_iliteral_ast AST_INT_EXPR (new_signed IInt 10))])])])])]) (Some [(fun t => sym_define_memory t [120] DTYPE_INT); (fun t => sym_define_memory t [121] DTYPE_INT)]) None.
Example test_resolve_default_stmt_error_duplicated_ok : errs test_resolve_default_stmt_error_duplicated = true. Proof. vm_compute. reflexivity. Qed.
(** tests/resolver/test_statement_error.c test_resolve_default_stmt_error_child *)
Definition test_resolve_default_stmt_error_child := stmt_test (new_ast AST_SWITCH_STMT [(new_identifier_ast AST_IDENT_EXPR [120]); (new_ast AST_CMPD_STMT [(new_ast AST_DEFAULT_STMT [(new_ast AST_EXPR_STMT [(new_ast AST_POSTDEC_EXPR [(new_identifier_ast AST_IDENT_EXPR [121])])])])])]) (Some [(fun t => sym_define_memory t [120] DTYPE_INT)]) None.
Example test_resolve_default_stmt_error_child_ok : errs test_resolve_default_stmt_error_child = true. Proof. vm_compute. reflexivity. Qed.
(** tests/resolver/test_statement_error.c test_resolve_compound_stmt_error_child *)
Definition test_resolve_compound_stmt_error_child := stmt_test (new_ast AST_CMPD_STMT [(new_ast AST_DECL [(new_ast AST_DECL_SPECS [(new_ast AST_TYPE_INT [])]); (new_ast AST_INIT_DECLOR_LIST [(new_ast AST_INIT_DECLOR [(new_identifier_ast AST_IDENT_DECLOR [120]); (new_iliteral_ast AST_INT_EXPR (new_signed IInt 3))])])]); (new_ast AST_EXPR_STMT [(new_ast AST_ASSIGN_EXPR [(new_identifier_ast AST_IDENT_EXPR [120]); (new_ast AST_SUB_EXPR [(new_identifier_ast AST_IDENT_EXPR [121]); (new_iliteral_ast AST_INT_EXPR (new_signed IInt 1))])])]); (new_ast AST_EXPR_STMT [(new_ast AST_ASSIGN_EXPR [(new_ast AST_INDIR_EXPR [(new_identifier_ast AST_IDENT_EXPR [120])]); (new_iliteral_ast AST_INT_EXPR (new_signed IInt 1))])]); (new_ast AST_EXPR_STMT [(new_ast AST_ASSIGN_EXPR [(new_identifier_ast AST_IDENT_EXPR [120]); (new_iliteral_ast AST_INT_EXPR (new_signed IInt 1))])])]) None None.
Example test_resolve_compound_stmt_error_child_ok : errs test_resolve_compound_stmt_error_child = true. Proof. vm_compute. reflexivity. Qed.
(** tests/resolver/test_statement_error.c test_resolve_continue_stmt_error *)
Definition test_resolve_continue_stmt_error := stmt_test (new_ast AST_CMPD_STMT [(new_ast AST_WHILE_STMT [(new_iliteral_ast AST_INT_EXPR (new_signed IInt 1)); (new_ast AST_CMPD_STMT [])]); (new_ast AST_CONTINUE_STMT [])]) None None.
Example test_resolve_continue_stmt_error_ok : errs test_resolve_continue_stmt_error = true. Proof. vm_compute. reflexivity. Qed.
(** tests/resolver/test_statement_error.c test_resolve_break_stmt_error *)
Definition test_resolve_break_stmt_error := stmt_test (new_ast AST_CMPD_STMT [(new_ast AST_FOR_STMT [(new_ast AST_NULL_STMT []); (new_ast AST_NULL_STMT []); (new_ast AST_NULL_STMT []); (new_ast AST_CMPD_STMT [])]); (new_ast AST_BREAK_STMT [])]) None None.
Example test_resolve_break_stmt_error_ok : errs test_resolve_break_stmt_error = true. Proof. vm_compute. reflexivity. Qed.
(** tests/resolver/test_statement_error.c test_resolve_return_stmt_error_child *)
Definition test_resolve_return_stmt_error_child := stmt_test (new_ast AST_RET_STMT [(new_ast AST_ADD_EXPR [(new_identifier_ast AST_IDENT_EXPR [120]); (new_identifier_ast AST_IDENT_EXPR [121])])]) (Some [(fun t => sym_define_memory t [120] DTYPE_INT)]) (Some (DTYPE_POINTER DTYPE_INT)).
Example test_resolve_return_stmt_error_child_ok : errs test_resolve_return_stmt_error_child = true. Proof. vm_compute. reflexivity. Qed.
(** tests/resolver/test_statement_error.c test_resolve_return_stmt_error_unassignable *)
Definition test_resolve_return_stmt_error_unassignable := stmt_test (new_ast AST_RET_STMT [(new_ast AST_ADD_EXPR [(new_identifier_ast AST_IDENT_EXPR [120]); (new_iliteral_ast AST_INT_EXPR (new_signed IInt 1))])]) (Some [(fun t => sym_define_memory t [120] DTYPE_INT)]) (Some (DTYPE_POINTER DTYPE_INT)).
Example test_resolve_return_stmt_error_unassignable_ok : errs test_resolve_return_stmt_error_unassignable = true. Proof. vm_compute. reflexivity. Qed.
(** tests/resolver/test_statement_error.c test_resolve_return_stmt_error_no_value_non_void *)
Definition test_resolve_return_stmt_error_no_value_non_void := stmt_test (new_ast AST_RET_STMT []) None (Some (DTYPE_POINTER DTYPE_CHAR)).
Example test_resolve_return_stmt_error_no_value_non_void_ok : errs test_resolve_return_stmt_error_no_value_non_void = true. Proof. vm_compute. reflexivity. Qed.
(** tests/resolver/test_statement_error.c test_resolve_return_stmt_error_value_void *)
Definition test_resolve_return_stmt_error_value_void := stmt_test (new_ast AST_RET_STMT [(new_iliteral_ast AST_INT_EXPR (new_signed IInt 1))]) None (Some DTYPE_VOID).
Example test_resolve_return_stmt_error_value_void_ok : errs test_resolve_return_stmt_error_value_void = true. Proof. vm_compute. reflexivity. Qed.
(** tests/resolver/test_statement_error.c test_resolve_expression_stmt_error_child *)
Definition test_resolve_expression_stmt_error_child := stmt_test (new_ast AST_EXPR_STMT [(new_ast AST_ASSIGN_EXPR [(new_identifier_ast AST_IDENT_EXPR [120]); (new_ast AST_ADD_EXPR [(new_identifier_ast AST_IDENT_EXPR [120]); (new_identifier_ast AST_IDENT_EXPR [121])])])]) (Some [(fun t => sym_define_memory t [120] DTYPE_INT)]) None.
Example test_resolve_expression_stmt_error_child_ok : errs test_resolve_expression_stmt_error_child = true. Proof. vm_compute. reflexivity. Qed.
(** tests/resolver/test_statement_error.c test_resolve_if_else_stmt_error_condition_child *)
Definition test_resolve_if_else_stmt_error_condition_child := stmt_test (new_ast AST_IF_STMT [(new_ast AST_EQUAL_EXPR [(new_identifier_ast AST_IDENT_EXPR [120]); (new_iliteral_ast AST_INT_EXPR (new_signed IInt 0))]); (new_ast AST_EXPR_STMT [(new_ast AST_ASSIGN_EXPR [(new_identifier_ast AST_IDENT_EXPR [121]); (new_iliteral_ast AST_INT_EXPR (new_signed IInt 1))])])]) None None.
Example test_resolve_if_else_stmt_error_condition_child_ok : errs test_resolve_if_else_stmt_error_condition_child = true. Proof. vm_compute. reflexivity. Qed.
(** tests/resolver/test_statement_error.c test_resolve_if_else_stmt_error_condition_non_scalar *)
Definition test_resolve_if_else_stmt_error_condition_non_scalar := stmt_test (new_ast AST_IF_STMT [(new_identifier_ast AST_IDENT_EXPR [120]); (new_ast AST_EXPR_STMT [(new_ast AST_ASSIGN_EXPR [(new_identifier_ast AST_IDENT_EXPR [121]); (new_iliteral_ast AST_INT_EXPR (new_signed IInt 1))])])]) (Some [(fun t => sym_define_memory t [120] (ust [([109; 101; 109; 98; 101; 114], DTYPE_INT)]))]) None.
Example test_resolve_if_else_stmt_error_condition_non_scalar_ok : errs test_resolve_if_else_stmt_error_condition_non_scalar = true. Proof. vm_compute. reflexivity. Qed.
(** tests/resolver/test_statement_error.c test_resolve_if_else_stmt_error_then_child *)
Definition test_resolve_if_else_stmt_error_then_child := stmt_test (new_ast AST_CMPD_STMT [(new_ast AST_IF_STMT [(new_ast AST_EQUAL_EXPR [(new_identifier_ast AST_IDENT_EXPR [120]); (new_iliteral_ast AST_INT_EXPR (new_signed IInt 0))]); (new_ast AST_CMPD_STMT [(new_ast AST_EXPR_STMT [(new_ast AST_ASSIGN_EXPR [(new_identifier_ast AST_IDENT_EXPR [121]); (new_iliteral_ast AST_INT_EXPR (new_signed IInt 1))])])]); (new_ast AST_CMPD_STMT [(new_ast AST_EXPR_STMT [(new_ast AST_ASSIGN_EXPR [(new_identifier_ast AST_IDENT_EXPR [122]); (new_iliteral_ast AST_INT_EXPR (new_signed IInt 1))])])])])]) (Some [(fun t => sym_define_memory t [120] DTYPE_INT); (fun t => sym_define_memory t [122] DTYPE_INT)]) None.
Example test_resolve_if_else_stmt_error_then_child_ok : errs test_resolve_if_else_stmt_error_then_child = true. Proof. vm_compute. reflexivity. Qed.
(** tests/resolver/test_statement_error.c test_resolve_if_else_stmt_error_else_child *)
Definition test_resolve_if_else_stmt_error_else_child := stmt_test (new_ast AST_CMPD_STMT [(new_ast AST_IF_STMT [(new_ast AST_EQUAL_EXPR [(new_identifier_ast AST_IDENT_EXPR [120]); (new_iliteral_ast AST_INT_EXPR (new_signed IInt 0))]); (new_ast AST_CMPD_STMT [(new_ast AST_EXPR_STMT [(new_ast AST_ASSIGN_EXPR [(new_identifier_ast AST_IDENT_EXPR [121]); (new_iliteral_ast AST_INT_EXPR (new_signed IInt 1))])])]); (new_ast AST_CMPD_STMT [(new_ast AST_EXPR_STMT [(new_ast AST_ASSIGN_EXPR [(new_identifier_ast AST_IDENT_EXPR [122]); (new_iliteral_ast AST_INT_EXPR (new_signed IInt 1))])])])])]) (Some [(fun t => sym_define_memory t [120] DTYPE_INT); (fun t => sym_define_memory t [121] DTYPE_INT)]) None.
Example test_resolve_if_else_stmt_error_else_child_ok : errs test_resolve_if_else_stmt_error_else_child = true. Proof. vm_compute. reflexivity. Qed.
(** tests/resolver/test_statement_error.c test_resolve_switch_stmt_error_condition_child *)
Definition test_resolve_switch_stmt_error_condition_child := stmt_test (new_ast AST_SWITCH_STMT [(new_identifier_ast AST_IDENT_EXPR [120]); (new_ast AST_CMPD_STMT [(new_ast AST_CASE_STMT [(new_iliteral_ast AST_INT_EXPR (new_signed IInt 1)); (new_ast AST_EXPR_STMT [(new_ast AST_ASSIGN_EXPR [(new_identifier_ast AST_IDENT_EXPR [121]); (new_iliteral_ast AST_INT_EXPR (new_signed IInt 1))])])]); (new_ast AST_BREAK_STMT [])])]) (Some [(fun t => sym_define_memory t [121] DTYPE_INT)]) None.
Example test_resolve_switch_stmt_error_condition_child_ok : errs test_resolve_switch_stmt_error_condition_child = true. Proof. vm_compute. reflexivity. Qed.
(** tests/resolver/test_statement_error.c test_resolve_switch_stmt_error_condition_non_integer *)
Definition test_resolve_switch_stmt_error_condition_non_integer := stmt_test (new_ast AST_SWITCH_STMT [(new_identifier_ast AST_IDENT_EXPR [120]); (new_ast AST_CMPD_STMT [(new_ast AST_CASE_STMT [(new_iliteral_ast AST_INT_EXPR (new_signed IInt 1)); (new_ast AST_EXPR_STMT [(new_ast AST_ASSIGN_EXPR [(new_identifier_ast AST_IDENT_EXPR [121]); (new_iliteral_ast AST_INT_EXPR (new_signed IInt 1))])])]); (new_ast AST_BREAK_STMT [])])]) (Some [(fun t => sym_define_memory t [120] (DTYPE_POINTER DTYPE_INT)); (fun t => sym_define_memory t [121] DTYPE_INT)]) None.
Example test_resolve_switch_stmt_error_condition_non_integer_ok : errs test_resolve_switch_stmt_error_condition_non_integer = true. Proof. vm_compute. reflexivity. Qed.
(** tests/resolver/test_statement_error.c test_resolve_switch_stmt_error_body_child *)
Definition test_resolve_switch_stmt_error_body_child := stmt_test (new_ast AST_SWITCH_STMT [(new_identifier_ast AST_IDENT_EXPR [120]); (new_ast AST_CMPD_STMT [(new_ast AST_CASE_STMT [(new_iliteral_ast AST_INT_EXPR (new_signed IInt 1)); (new_ast AST_EXPR_STMT [(new_ast AST_ASSIGN_EXPR [(new_identifier_ast AST_IDENT_EXPR [121]); (new_iliteral_ast AST_INT_EXPR (new_signed IInt 1))])])]); (new_ast AST_BREAK_STMT [])])]) (Some [(fun t => sym_define_memory t [120] DTYPE_INT)]) None.
Example test_resolve_switch_stmt_error_body_child_ok : errs test_resolve_switch_stmt_error_body_child = true. Proof. vm_compute. reflexivity. Qed.
(** tests/resolver/test_statement_error.c test_resolve_while_stmt_error_condition_child *)
Definition test_resolve_while_stmt_error_condition_child := stmt_test (new_ast AST_WHILE_STMT [(new_ast AST_LESS_EXPR [(new_identifier_ast AST_IDENT_EXPR [120]); (new_iliteral_ast AST_INT_EXPR (new_signed IInt 5))]); (new_ast AST_EXPR_STMT [(new_ast AST_ASSIGN_EXPR [(new_identifier_ast AST_IDENT_EXPR [120]); (new_ast AST_MUL_EXPR [(new_identifier_ast AST_IDENT_EXPR [120]); (new_iliteral_ast AST_INT_EXPR (new_signed IInt 2))])])])]) None None.
Example test_resolve_while_stmt_error_condition_child_ok : errs test_resolve_while_stmt_error_condition_child = true. Proof. vm_compute. reflexivity. Qed.
(** tests/resolver/test_statement_error.c test_resolve_while_stmt_error_condition_non_scalar *)
Definition test_resolve_while_stmt_error_condition_non_scalar := stmt_test (new_ast AST_WHILE_STMT [(new_identifier_ast AST_IDENT_EXPR [120]); (new_ast AST_CMPD_STMT [])]) (Some [(fun t => sym_define_memory t [120] (ust [([109; 101; 109; 98; 101; 114], DTYPE_INT)]))]) None.
Example test_resolve_while_stmt_error_condition_non_scalar_ok : errs test_resolve_while_stmt_error_condition_non_scalar = true. Proof. vm_compute. reflexivity. Qed.
(** tests/resolver/test_statement_error.c test_resolve_while_stmt_error_body_child *)
Definition test_resolve_while_stmt_error_body_child := stmt_test (new_ast AST_WHILE_STMT [(new_ast AST_LESS_EXPR [(new_identifier_ast AST_IDENT_EXPR [120]); (new_iliteral_ast AST_INT_EXPR (new_signed IInt 10))]); (new_ast AST_CMPD_STMT [(new_ast AST_EXPR_STMT [(new_ast AST_ASSIGN_EXPR [(new_identifier_ast AST_IDENT_EXPR [120]); (new_ast AST_ADD_EXPR [(new_identifier_ast AST_IDENT_EXPR [120]); (new_iliteral_ast AST_INT_EXPR (new_signed IInt 1))])])]); (new_ast AST_EXPR_STMT [(new_ast AST_ASSIGN_EXPR [(new_identifier_ast AST_IDENT_EXPR [121]); (new_ast AST_MUL_EXPR [(new_iliteral_ast AST_INT_EXPR (new_signed IInt 2)); (new_identifier_ast AST_IDENT_EXPR [121])])])])])]) (Some [(fun t => sym_define_memory t [120] DTYPE_INT)]) None.
Example test_resolve_while_stmt_error_body_child_ok : errs test_resolve_while_stmt_error_body_child = true. Proof. vm_compute. reflexivity. Qed.
(** tests/resolver/test_statement_error.c test_resolve_for_stmt_error_init_decl_child *)
Definition test_resolve_for_stmt_error_init_decl_child := stmt_test (new_ast AST_FOR_STMT [(new_ast AST_DECL [(new_ast AST_DECL_SPECS [(new_ast AST_TYPE_LONG []); (new_ast AST_TYPE_CHAR [])]); (new_ast AST_INIT_DECLOR_LIST [(new_ast AST_INIT_DECLOR [(new_identifier_ast AST_IDENT_DECLOR [105]); (new_iliteral_ast AST_INT_EXPR (new_signed IInt 0))])])]); (new_ast AST_NULL_STMT []); (new_ast AST_NULL_STMT []); (new_ast AST_CMPD_STMT [])]) None None.
Example test_resolve_for_stmt_error_init_decl_child_ok : errs test_resolve_for_stmt_error_init_decl_child = true. Proof. vm_compute. reflexivity. Qed.
(** tests/resolver/test_statement_error.c test_resolve_for_stmt_error_init_expr_child *)
Definition test_resolve_for_stmt_error_init_expr_child := stmt_test (new_ast AST_FOR_STMT [(new_ast AST_EXPR_STMT [(new_ast AST_ASSIGN_EXPR [(new_identifier_ast AST_IDENT_EXPR [105]); (new_iliteral_ast AST_INT_EXPR (new_signed IInt 0))])]); (new_ast AST_NULL_STMT []); (new_ast AST_NULL_STMT []); (new_ast AST_CMPD_STMT [])]) None None.
Example test_resolve_for_stmt_error_init_expr_child_ok : errs test_resolve_for_stmt_error_init_expr_child = true. Proof. vm_compute. reflexivity. Qed.
(** tests/resolver/test_statement_error.c test_resolve_for_stmt_error_init_decl_typedef *)
Definition test_resolve_for_stmt_error_init_decl_typedef := stmt_test (new_ast AST_FOR_STMT [(new_ast AST_DECL [(new_ast AST_DECL_SPECS [(new_ast AST_STG_TYPEDEF []); (new_ast AST_TYPE_LONG [])]); (new_ast AST_INIT_DECLOR_LIST [(new_ast AST_INIT_DECLOR [(new_identifier_ast AST_IDENT_DECLOR [105])]); (new_ast AST_INIT_DECLOR [(new_identifier_ast AST_IDENT_DECLOR [106])])])]); (new_ast AST_NULL_STMT []); (new_ast AST_NULL_STMT []); (new_ast AST_CMPD_STMT [])]) None None.
Example test_resolve_for_stmt_error_init_decl_typedef_ok : errs test_resolve_for_stmt_error_init_decl_typedef = true. Proof. vm_compute. reflexivity. Qed.
(** tests/resolver/test_statement_error.c test_resolve_for_stmt_error_init_decl_out_of_scope *)
Definition test_resolve_for_stmt_error_init_decl_out_of_scope := stmt_test (new_ast AST_CMPD_STMT [(new_ast AST_FOR_STMT [(new_ast AST_DECL [(new_ast AST_DECL_SPECS [(new_ast AST_TYPE_INT [])]); (new_ast AST_INIT_DECLOR_LIST [(new_ast AST_INIT_DECLOR [(new_identifier_ast AST_IDENT_DECLOR [105]); (new_iliteral_ast AST_INT_EXPR (new_signed IInt 0))])])]); (new_ast AST_EXPR_STMT [(new_ast AST_LESS_EXPR [(new_identifier_ast AST_IDENT_EXPR [105]); (new_iliteral_ast AST_INT_EXPR (new_signed IInt 10))])]); (new_ast AST_EXPR_STMT [(new_ast AST_POSTINC_EXPR [(new_identifier_ast AST_IDENT_EXPR [105])])]); (new_ast AST_CMPD_STMT [])]); (new_ast AST_EXPR_STMT [(new_ast AST_ASSIGN_EXPR [(new_identifier_ast AST_IDENT_EXPR [105]); (new_iliteral_ast AST_INT_EXPR (new_signed IInt 0))])])]) None None.
Example test_resolve_for_stmt_error_init_decl_out_of_scope_ok : errs test_resolve_for_stmt_error_init_decl_out_of_scope = true. Proof. vm_compute. reflexivity. Qed.
(** tests/resolver/test_statement_error.c test_resolve_for_stmt_error_condition_child *)
Definition test_resolve_for_stmt_error_condition_child := stmt_test (new_ast AST_FOR_STMT [(new_ast AST_NULL_STMT []); (new_ast AST_EXPR_STMT [(new_ast AST_LESS_EXPR [(new_identifier_ast AST_IDENT_EXPR [118]); (new_iliteral_ast AST_INT_EXPR (new_signed IInt 10))])]); (new_ast AST_NULL_STMT []); (new_ast AST_CMPD_STMT [])]) (Some [(fun t => sym_define_memory t [118] (DTYPE_POINTER DTYPE_INT))]) None.
Example test_resolve_for_stmt_error_condition_child_ok : errs test_resolve_for_stmt_error_condition_child = true. Proof. vm_compute. reflexivity. Qed.
(** tests/resolver/test_statement_error.c test_resolve_for_stmt_error_condition_non_scalar *)
Definition test_resolve_for_stmt_error_condition_non_scalar := stmt_test (new_ast AST_FOR_STMT [(new_ast AST_NULL_STMT []); (new_ast AST_EXPR_STMT [(new_identifier_ast AST_IDENT_EXPR [120])]); (new_ast AST_NULL_STMT []); (new_ast AST_CMPD_STMT [])]) (Some [(fun t => sym_define_memory t [120] (ust [([109; 101; 109; 98; 101; 114], DTYPE_INT)]))]) None.
Example test_resolve_for_stmt_error_condition_non_scalar_ok : errs test_resolve_for_stmt_error_condition_non_scalar = true. Proof. vm_compute. reflexivity. Qed.
(** tests/resolver/test_statement_error.c test_resolve_for_stmt_error_expression_child *)
Definition test_resolve_for_stmt_error_expression_child := stmt_test (new_ast AST_FOR_STMT [(new_ast AST_NULL_STMT []); (new_ast AST_NULL_STMT []); (new_ast AST_EXPR_STMT [(new_ast AST_POSTINC_EXPR [(new_identifier_ast AST_IDENT_EXPR [105])])]); (new_ast AST_CMPD_STMT [])]) None None.
Example test_resolve_for_stmt_error_expression_child_ok : errs test_resolve_for_stmt_error_expression_child = true. Proof. vm_compute. reflexivity. Qed.
(** tests/resolver/test_statement_error.c test_resolve_for_stmt_error_body_child *)
Definition test_resolve_for_stmt_error_body_child := stmt_test (new_ast AST_FOR_STMT [(new_ast AST_DECL [(new_ast AST_DECL_SPECS [(new_ast AST_TYPE_INT [])]); (new_ast AST_INIT_DECLOR_LIST [(new_ast AST_INIT_DECLOR [(new_identifier_ast AST_IDENT_DECLOR [105]); (new_iliteral_ast AST_INT_EXPR (new_signed IInt 0))])])]); (new_ast AST_EXPR_STMT [(new_ast AST_LESS_EXPR [(new_identifier_ast AST_IDENT_EXPR [105]); (new_iliteral_ast AST_INT_EXPR (new_signed IInt 10))])]); (new_ast AST_EXPR_STMT [(new_ast AST_POSTINC_EXPR [(new_identifier_ast AST_IDENT_EXPR [105])])]); (new_ast AST_CMPD_STMT [(new_ast AST_EXPR_STMT [(new_ast AST_MUL_ASSIGN_EXPR [(new_identifier_ast AST_IDENT_EXPR [120]); (new_iliteral_ast AST_INT_EXPR (new_signed IInt 2))])])])]) None None.
Example test_resolve_for_stmt_error_body_child_ok : errs test_resolve_for_stmt_error_body_child = true. Proof. vm_compute. reflexivity. Qed.
(** tests/resolver/test_external.c test_resolve_transration_unit *)
Definition test_resolve_transration_unit := unit_test (new_ast AST_TRAS_UNIT [(new_ast AST_DECL [(new_ast AST_DECL_SPECS [(new_ast AST_TYPE_INT [])]); (new_ast AST_INIT_DECLOR_LIST [(new_ast AST_INIT_DECLOR [(new_ast AST_FUNC_DECLOR [(new_identifier_ast AST_IDENT_DECLOR [105; 110; 99; 114; 105; 109; 101; 110; 116]); (new_ast AST_PARAM_LIST [(new_ast AST_PARAM_DECL [(new_ast AST_DECL_SPECS [(new_ast AST_TYPE_INT [])]); (new_ast AST_ABS_DECLOR [])])])])])])]); (new_ast AST_FUNC_DEF [(new_ast AST_DECL_SPECS [(new_ast AST_TYPE_INT [])]); (new_ast AST_FUNC_DECLOR [(new_identifier_ast AST_IDENT_DECLOR [100; 101; 99; 114; 105; 109; 101; 110; 116]); (new_ast AST_PARAM_LIST [(new_ast AST_PARAM_DECL [(new_ast AST_DECL_SPECS [(new_ast AST_TYPE_INT [])]); (new_identifier_ast AST_IDENT_DECLOR [120])])])]); (new_ast AST_CMPD_STMT [(new_ast AST_RET_STMT [(new_ast AST_SUB_EXPR [(new_identifier_ast AST_IDENT_EXPR [120]); (new_iliteral_ast AST_INT_EXPR (new_signed IInt 1))])])])]); (new_ast AST_FUNC_DEF [(new_ast AST_DECL_SPECS [(new_ast AST_TYPE_CHAR [])]); (new_ast AST_FUNC_DECLOR [(new_identifier_ast AST_IDENT_DECLOR [99; 97; 115; 116]); (new_ast AST_PARAM_LIST [(new_ast AST_PARAM_DECL [(new_ast AST_DECL_SPECS [(new_ast AST_TYPE_INT [])]); (new_identifier_ast AST_IDENT_DECLOR [120])])])]); (new_ast AST_CMPD_STMT [(new_ast AST_RET_STMT [(new_identifier_ast AST_IDENT_EXPR [120])])])]); (new_ast AST_FUNC_DEF [(new_ast AST_DECL_SPECS [(new_ast AST_TYPE_VOID [])]); (new_ast AST_FUNC_DECLOR [(new_identifier_ast AST_IDENT_DECLOR [110; 117; 108; 108]); (new_ast AST_PARAM_LIST [(new_ast AST_PARAM_DECL [(new_ast AST_DECL_SPECS [(new_ast AST_TYPE_VOID [])]); (new_ast AST_ABS_DECLOR [])])])]); (new_ast AST_CMPD_STMT [])])]).
Example test_resolve_transration_unit_ok : got test_resolve_transration_unit = Some (new_srt SRT_TRAS_UNIT [(new_srt SRT_DECL_LIST [(new_srt SRT_INIT_DECL [(new_identifier_srt SRT_IDENT_DECL (DTYPE_FUNCTION [(None, DTYPE_INT)] DTYPE_INT) [105; 110; 99; 114; 105; 109; 101; 110; 116])])]); (new_srt SRT_FUNC_DEF [(new_identifier_srt SRT_IDENT_DECL (DTYPE_FUNCTION [(Some [120], DTYPE_INT)] DTYPE_INT) [100; 101; 99; 114; 105; 109; 101; 110; 116]); (new_srt SRT_CMPD_STMT [(new_srt SRT_RET_STMT [(new_dtyped_srt SRT_SUB_EXPR DTYPE_INT [(new_identifier_srt SRT_IDENT_EXPR DTYPE_INT [120]); (new_iliteral_srt DTYPE_INT (new_signed IInt 1))])])])]); (new_srt SRT_FUNC_DEF [(new_identifier_srt SRT_IDENT_DECL (DTYPE_FUNCTION [(Some [120], DTYPE_INT)] DTYPE_CHAR) [99; 97; 115; 116]); (new_srt SRT_CMPD_STMT [(new_srt SRT_RET_STMT [(new_dtyped_srt SRT_CAST_EXPR DTYPE_CHAR [(new_identifier_srt SRT_IDENT_EXPR DTYPE_INT [120])])])])]); (new_srt SRT_FUNC_DEF [(new_identifier_srt SRT_IDENT_DECL (DTYPE_FUNCTION [] DTYPE_VOID) [110; 117; 108; 108]); (new_srt SRT_CMPD_STMT [])])]). Proof. vm_compute. reflexivity. Qed.
(** tests/resolver/test_external_error.c test_resolve_translation_unit_error_child *)
Definition test_resolve_translation_unit_error_child := unit_test (new_ast AST_TRAS_UNIT [(new_ast AST_DECL [(new_ast AST_DECL_SPECS [(new_ast AST_TYPE_INT [])]); (new_ast AST_INIT_DECLOR_LIST [(new_ast AST_INIT_DECLOR [(new_ast AST_FUNC_DECLOR [(new_identifier_ast AST_IDENT_DECLOR [105; 110; 99; 114; 105; 109; 101; 110; 116]); (new_ast AST_PARAM_LIST [(new_ast AST_PARAM_DECL [(new_ast AST_DECL_SPECS [(new_ast AST_STG_TYPEDEF []); (new_ast AST_TYPE_INT [])]); (new_identifier_ast AST_IDENT_DECLOR [120])])])])])])]); (new_ast AST_FUNC_DEF [(new_ast AST_DECL_SPECS [(new_ast AST_TYPE_INT [])]); (new_ast AST_FUNC_DECLOR [(new_identifier_ast AST_IDENT_DECLOR [100; 101; 99; 114; 105; 109; 101; 110; 116]); (new_ast AST_PARAM_LIST [(new_ast AST_PARAM_DECL [(new_ast AST_DECL_SPECS [(new_ast AST_TYPE_INT [])]); (new_ast AST_PTR_DECLOR [(new_identifier_ast AST_IDENT_DECLOR [120])])])])]); (new_ast AST_CMPD_STMT [(new_ast AST_RET_STMT [(new_ast AST_SUB_EXPR [(new_identifier_ast AST_IDENT_EXPR [120]); (new_iliteral_ast AST_INT_EXPR (new_signed IInt 1))])])])]); (new_ast AST_FUNC_DEF [(new_ast AST_DECL_SPECS [(new_ast AST_TYPE_CHAR [])]); (new_ast AST_FUNC_DECLOR [(new_identifier_ast AST_IDENT_DECLOR [99; 97; 115; 116]); (new_ast AST_PARAM_LIST [(new_ast AST_PARAM_DECL [(new_ast AST_DECL_SPECS [(new_ast AST_TYPE_INT [])]); (new_identifier_ast AST_IDENT_DECLOR [120])])])]); (new_ast AST_CMPD_STMT [(new_ast AST_RET_STMT [(new_identifier_ast AST_IDENT_EXPR [120])])])])]).
Example test_resolve_translation_unit_error_child_ok : errs test_resolve_translation_unit_error_child = true. Proof. vm_compute. reflexivity. Qed.
(** tests/resolver/test_external_error.c test_resolve_function_definition_error_decl_specifier *)
Definition test_resolve_function_definition_error_decl_specifier := unit_test (new_ast AST_TRAS_UNIT [(new_ast AST_FUNC_DEF [(new_ast AST_DECL_SPECS [(new_ast AST_TYPE_INT []); (new_ast AST_TYPE_INT [])]); (new_ast AST_FUNC_DECLOR [(new_identifier_ast AST_IDENT_DECLOR [101; 114; 114; 111; 114]); (new_ast AST_PARAM_LIST [])]); (new_ast AST_CMPD_STMT [(new_ast AST_RET_STMT [(new_iliteral_ast AST_INT_EXPR (new_signed IInt 1))])])])]).
Example test_resolve_function_definition_error_decl_specifier_ok : errs test_resolve_function_definition_error_decl_specifier = true. Proof. vm_compute. reflexivity. Qed.
(** tests/resolver/test_external_error.c test_resolve_function_definition_error_storage_specifier *)
Definition test_resolve_function_definition_error_storage_specifier := unit_test (new_ast AST_TRAS_UNIT [(new_ast AST_FUNC_DEF [(new_ast AST_DECL_SPECS [(new_ast AST_STG_TYPEDEF []); (new_ast AST_TYPE_INT [])]); (new_ast AST_FUNC_DECLOR [(new_identifier_ast AST_IDENT_DECLOR [101; 114; 114; 111; 114]); (new_ast AST_PARAM_LIST [])]); (new_ast AST_CMPD_STMT [(new_ast AST_RET_STMT [(new_iliteral_ast AST_INT_EXPR (new_signed IInt 1))])])])]).
Example test_resolve_function_definition_error_storage_specifier_ok : errs test_resolve_function_definition_error_storage_specifier = true. Proof. vm_compute. reflexivity. Qed.
(** tests/resolver/test_external_error.c test_resolve_function_definition_error_non_func *)
Definition test_resolve_function_definition_error_non_func := unit_test (new_ast AST_TRAS_UNIT [(new_ast AST_FUNC_DEF [(new_ast AST_DECL_SPECS [(new_ast AST_TYPE_INT [])]); (new_ast AST_ARRAY_DECLOR [(new_identifier_ast AST_IDENT_DECLOR [101; 114; 114; 111; 114]); (new_iliteral_ast AST_INT_EXPR (new_signed IInt 3))]); (new_ast AST_CMPD_STMT [(new_ast AST_RET_STMT [(new_iliteral_ast AST_INT_EXPR (new_signed IInt 1))])])])]).
Example test_resolve_function_definition_error_non_func_ok : errs test_resolve_function_definition_error_non_func = true. Proof. vm_compute. reflexivity. Qed.
(** tests/resolver/test_external_error.c test_resolve_function_definition_error_returning_array *)
Definition test_resolve_function_definition_error_returning_array := unit_test (new_ast AST_TRAS_UNIT [(new_ast AST_FUNC_DEF [(new_ast AST_DECL_SPECS [(new_ast AST_TYPE_INT [])]); (new_ast AST_FUNC_DECLOR [(new_ast AST_ARRAY_DECLOR [(new_identifier_ast AST_IDENT_DECLOR [102; 117; 110; 99; 116; 105; 111; 110]); (new_iliteral_ast AST_INT_EXPR (new_signed IInt 6))]); (new_ast AST_PARAM_LIST [])]); (new_ast AST_CMPD_STMT [])])]).
Example test_resolve_function_definition_error_returning_array_ok : errs test_resolve_function_definition_error_returning_array = true. Proof. vm_compute. reflexivity. Qed.
(** tests/resolver/test_external_error.c test_resolve_function_definition_error_returning_function *)
Definition test_resolve_function_definition_error_returning_function := unit_test (new_ast AST_TRAS_UNIT [(new_ast AST_FUNC_DEF [(new_ast AST_DECL_SPECS [(new_ast AST_TYPE_INT [])]); (new_ast AST_FUNC_DECLOR [(new_ast AST_FUNC_DECLOR [(new_identifier_ast AST_IDENT_DECLOR [102; 117; 110; 99; 116; 105; 111; 110]); (new_ast AST_PARAM_LIST [])]); (new_ast AST_PARAM_LIST [])]); (new_ast AST_CMPD_STMT [])])]).
Example test_resolve_function_definition_error_returning_function_ok : errs test_resolve_function_definition_error_returning_function = true. Proof. vm_compute. reflexivity. Qed.
(** tests/resolver/test_external_error.c test_resolve_function_definition_error_returning_non_void_incomplete *)
Definition test_resolve_function_definition_error_returning_non_void_incomplete := unit_test (new_ast AST_TRAS_UNIT [(new_ast AST_FUNC_DEF [(new_ast AST_DECL_SPECS [(new_ast AST_TYPE_STRUCT [(new_identifier_ast AST_STRUCT_NAME [83; 116; 114; 117; 99; 116])])]); (new_ast AST_FUNC_DECLOR [(new_identifier_ast AST_IDENT_DECLOR [102; 117; 110; 99; 116; 105; 111; 110]); (new_ast AST_PARAM_LIST [])]); (new_ast AST_CMPD_STMT [])])]).
Example test_resolve_function_definition_error_returning_non_void_incomplete_ok : errs test_resolve_function_definition_error_returning_non_void_incomplete = true. Proof. vm_compute. reflexivity. Qed.
(** tests/resolver/test_external_error.c test_resolve_function_definition_error_no_param_name *)
Definition test_resolve_function_definition_error_no_param_name := unit_test (new_ast AST_TRAS_UNIT [(new_ast AST_FUNC_DEF [(new_ast AST_DECL_SPECS [(new_ast AST_TYPE_INT [])]); (new_ast AST_FUNC_DECLOR [(new_identifier_ast AST_IDENT_DECLOR [101; 114; 114; 111; 114]); (new_ast AST_PARAM_LIST [(new_ast AST_PARAM_DECL [(new_ast AST_DECL_SPECS [(new_ast AST_TYPE_INT [])]); (new_ast AST_ABS_DECLOR [])]); (new_ast AST_PARAM_DECL [(new_ast AST_DECL_SPECS [(new_ast AST_TYPE_CHAR [])]); (new_ast AST_ABS_DECLOR [])])])]); (new_ast AST_CMPD_STMT [])])]).
Example test_resolve_function_definition_error_no_param_name_ok : errs test_resolve_function_definition_error_no_param_name = true. Proof. vm_compute. reflexivity. Qed.
(** tests/resolver/test_external_error.c test_resolve_function_definition_error_param_duplicated *)
Definition test_resolve_function_definition_error_param_duplicated := unit_test (new_ast AST_TRAS_UNIT [(new_ast AST_FUNC_DEF [(new_ast AST_DECL_SPECS [(new_ast AST_TYPE_INT [])]); (new_ast AST_FUNC_DECLOR [(new_identifier_ast AST_IDENT_DECLOR [101; 114; 114; 111; 114]); (new_ast AST_PARAM_LIST [(new_ast AST_PARAM_DECL [(new_ast AST_DECL_SPECS [(new_ast AST_TYPE_INT [])]); (new_identifier_ast AST_IDENT_DECLOR [120])]); (new_ast AST_PARAM_DECL [(new_ast AST_DECL_SPECS [(new_ast AST_TYPE_CHAR [])]); (new_identifier_ast AST_IDENT_DECLOR [120])])])]); (new_ast AST_CMPD_STMT [(new_ast AST_RET_STMT [(new_ast AST_ADD_EXPR [(new_identifier_ast AST_IDENT_EXPR [120]); (new_identifier_ast AST_IDENT_EXPR [120])])])])])]).
Example test_resolve_function_definition_error_param_duplicated_ok : errs test_resolve_function_definition_error_param_duplicated = true. Proof. vm_compute. reflexivity. Qed.
(** tests/resolver/test_external_error.c test_resolve_function_definition_error_duplicated *)
Definition test_resolve_function_definition_error_duplicated := unit_test (new_ast AST_TRAS_UNIT [(new_ast AST_FUNC_DEF [(new_ast AST_DECL_SPECS [(new_ast AST_TYPE_INT [])]); (new_ast AST_FUNC_DECLOR [(new_identifier_ast AST_IDENT_DECLOR [101; 114; 114; 111; 114]); (new_ast AST_PARAM_LIST [])]); (new_ast AST_CMPD_STMT [(new_ast AST_RET_STMT [(new_iliteral_ast AST_INT_EXPR (new_signed IInt 1))])])]); (new_ast AST_FUNC_DEF [(new_ast AST_DECL_SPECS [(new_ast AST_TYPE_INT [])]); (new_ast AST_FUNC_DECLOR [(new_identifier_ast AST_IDENT_DECLOR [111; 107]); (new_ast AST_PARAM_LIST [])]); (new_ast AST_CMPD_STMT [(new_ast AST_RET_STMT [(new_iliteral_ast AST_INT_EXPR (new_signed IInt 0))])])]); (new_ast AST_FUNC_DEF [(new_ast AST_DECL_SPECS [(new_ast AST_TYPE_INT [])]); (new_ast AST_FUNC_DECLOR [(new_identifier_ast AST_IDENT_DECLOR [101; 114; 114; 111; 114]); (new_ast AST_PARAM_LIST [])]); (new_ast AST_CMPD_STMT [(new_ast AST_RET_STMT [(new_iliteral_ast AST_INT_EXPR (new_signed IInt 1))])])])]).
Example test_resolve_function_definition_error_duplicated_ok : errs test_resolve_function_definition_error_duplicated = true. Proof. vm_compute. reflexivity. Qed.
(** tests/resolver/test_external_error.c test_resolve_function_definition_error_body *)
Definition test_resolve_function_definition_error_body := unit_test (new_ast AST_TRAS_UNIT [(new_ast AST_FUNC_DEF [(new_ast AST_DECL_SPECS [(new_ast AST_TYPE_INT [])]); (new_ast AST_FUNC_DECLOR [(new_identifier_ast AST_IDENT_DECLOR [101; 114; 114; 111; 114]); (new_ast AST_PARAM_LIST [])]); (new_ast AST_CMPD_STMT [(new_ast AST_DECL [(new_ast AST_DECL_SPECS [(new_ast AST_TYPE_INT [])]); (new_ast AST_INIT_DECLOR_LIST [(new_ast AST_INIT_DECLOR [(new_identifier_ast AST_IDENT_DECLOR [120])]); (new_ast AST_INIT_DECLOR [(new_identifier_ast AST_IDENT_DECLOR [120])])])]); (new_ast AST_EXPR_STMT [(new_ast AST_ASSIGN_EXPR [(new_ast AST_ADDR_EXPR [(new_identifier_ast AST_IDENT_EXPR [120])]); (new_ast AST_ADD_EXPR [(new_identifier_ast AST_IDENT_EXPR [120]); (new_iliteral_ast AST_INT_EXPR (new_signed IInt 1))])])]); (new_ast AST_RET_STMT [(new_iliteral_ast AST_INT_EXPR (new_signed IInt 1))])])])]).
Example test_resolve_function_definition_error_body_ok : errs test_resolve_function_definition_error_body = true. Proof. vm_compute. reflexivity. Qed.
