(** The code generator unit tests of /repo/tests/immcgen, read by tools/gen_tests.py and run on the model.
    These are tests of the model, not properties. *)
From Verif Require Import Base LiteralModel ImmcgenModel.
Open Scope Z_scope.

Definition ust ms := match new_unnamed_struct ms with Ok d => d | _ => DTYPE_VOID end.
Fixpoint run_ops {A} (l : list (A -> res A)) (t : A) : res A :=
  match l with [] => Ok t | f :: r => do t <- f t; run_ops r t end.
(** symbol and tag table set up by the test, in a scope inside a fresh global scope *)
Definition inner {A} (fresh : list A) (enter : list A -> list A) (dflt : bool) (ops : option (list (list A -> res (list A)))) : res (list A) :=
  match ops with
  | None => Ok (if dflt then enter fresh else fresh)
  | Some ops => do t <- run_ops ops fresh; Ok (t ++ fresh)
  end.
Definition outer {A} (fresh : list A) (ops : option (list (list A -> res (list A)))) : res (list A) :=
  match ops with None => Ok fresh | Some ops => run_ops ops fresh end.
Definition codes (s : srt) (st : gst) : res (list immc) := do (cs, _) <- gen (S (srt_height s)) None s st; Ok cs.
Definition local_test (dflt : bool) s sy tg :=
  do sy <- inner new_symtab sym_enter dflt sy; do tg <- inner new_tagtab tag_enter dflt tg;
  codes s (gset_tags tg (gset_syms sy new_immcgen)).
Definition global_test s sy tg :=
  do sy <- outer new_symtab sy; do tg <- outer new_tagtab tg;
  codes s (gset_tags tg (gset_syms sy new_immcgen)).
Definition stmt_test s sy ret :=
  do sy <- inner new_symtab sym_enter false sy; codes s (gset_ret ret (gset_syms sy new_immcgen)).

(** tests/immcgen/test_declaration.c test_immcgen_local_scalar_decl *)
Definition test_immcgen_local_scalar_decl := local_test true (new_srt SRT_DECL_LIST [(new_srt SRT_INIT_DECL [(new_identifier_srt SRT_IDENT_DECL DTYPE_CHAR [99])]); (new_srt SRT_INIT_DECL [(new_identifier_srt SRT_IDENT_DECL DTYPE_INT [105])])]) None None.
Example test_immcgen_local_scalar_decl_ok : test_immcgen_local_scalar_decl = Ok
  [].
Proof. vm_compute. reflexivity. Qed.
(** tests/immcgen/test_declaration.c test_immcgen_global_scalar_decl *)
Definition test_immcgen_global_scalar_decl := global_test (new_srt SRT_DECL_LIST [(new_srt SRT_INIT_DECL [(new_identifier_srt SRT_IDENT_DECL DTYPE_CHAR [99])]); (new_srt SRT_INIT_DECL [(new_identifier_srt SRT_IDENT_DECL DTYPE_INT [105])])]) None None.
Example test_immcgen_global_scalar_decl_ok : test_immcgen_global_scalar_decl = Ok
  [new_label_immc IMMC_LABEL_VARIABLE IMMC_VIS_GLOBAL [99];
   new_int_data_immc IMMC_DATA_ZERO (new_signed IInt 1);
   new_label_immc IMMC_LABEL_VARIABLE IMMC_VIS_GLOBAL [105];
   new_int_data_immc IMMC_DATA_ZERO (new_signed IInt 4)].
Proof. vm_compute. reflexivity. Qed.
(** tests/immcgen/test_declaration.c test_immcgen_local_array_decl *)
Definition test_immcgen_local_array_decl := local_test true (new_srt SRT_DECL_LIST [(new_srt SRT_INIT_DECL [(new_identifier_srt SRT_IDENT_DECL (DTYPE_ARRAY DTYPE_INT 5) [97])]); (new_srt SRT_INIT_DECL [(new_identifier_srt SRT_IDENT_DECL (DTYPE_ARRAY (DTYPE_ARRAY DTYPE_INT 3) 2) [98])])]) None None.
Example test_immcgen_local_array_decl_ok : test_immcgen_local_array_decl = Ok
  [].
Proof. vm_compute. reflexivity. Qed.
(** tests/immcgen/test_declaration.c test_immcgen_global_array_decl *)
Definition test_immcgen_global_array_decl := global_test (new_srt SRT_DECL_LIST [(new_srt SRT_INIT_DECL [(new_identifier_srt SRT_IDENT_DECL (DTYPE_ARRAY DTYPE_INT 5) [97])]); (new_srt SRT_INIT_DECL [(new_identifier_srt SRT_IDENT_DECL (DTYPE_ARRAY (DTYPE_ARRAY DTYPE_INT 3) 2) [98])])]) None None.
Example test_immcgen_global_array_decl_ok : test_immcgen_global_array_decl = Ok
  [new_label_immc IMMC_LABEL_VARIABLE IMMC_VIS_GLOBAL [97];
   new_int_data_immc IMMC_DATA_ZERO (new_signed IInt 20);
   new_label_immc IMMC_LABEL_VARIABLE IMMC_VIS_GLOBAL [98];
   new_int_data_immc IMMC_DATA_ZERO (new_signed IInt 24)].
Proof. vm_compute. reflexivity. Qed.
(** tests/immcgen/test_declaration.c test_immcgen_strdecl *)
Definition test_immcgen_strdecl := global_test (new_srt SRT_DECL_LIST [(new_srt SRT_INIT_DECL [(new_string_srt SRT_STR_DECL (DTYPE_ARRAY DTYPE_CHAR 6) 0); (new_srt SRT_INIT [(new_sliteral_srt (DTYPE_ARRAY DTYPE_CHAR 6) [115; 116; 114; 105; 110; 103; 32; 108; 105; 116; 101; 114; 97; 108; 0])])])]) None None.
Example test_immcgen_strdecl_ok : test_immcgen_strdecl = Ok
  [new_label_immc IMMC_LABEL_VARIABLE IMMC_VIS_GLOBAL [46; 83; 76; 48];
   new_str_data_immc IMMC_DATA_STR [115; 116; 114; 105; 110; 103; 32; 108; 105; 116; 101; 114; 97; 108; 0]].
Proof. vm_compute. reflexivity. Qed.
(** tests/immcgen/test_declaration.c test_immcgen_local_struct_decl *)
Definition test_immcgen_local_struct_decl := local_test true (new_srt SRT_DECL_LIST [(new_srt SRT_INIT_DECL [(new_identifier_srt SRT_IDENT_DECL (DTYPE_NSTRUCT [83; 116; 114; 117; 99; 116] 12 4) [115; 116; 114; 117; 99; 116; 117; 114; 101])])]) None (Some [(fun t => tag_define_struct t [83; 116; 114; 117; 99; 116] [([120], DTYPE_CHAR); ([121], DTYPE_INT); ([122], DTYPE_CHAR)])]).
Example test_immcgen_local_struct_decl_ok : test_immcgen_local_struct_decl = Ok
  [].
Proof. vm_compute. reflexivity. Qed.
(** tests/immcgen/test_declaration.c test_immcgen_global_struct_decl *)
Definition test_immcgen_global_struct_decl := global_test (new_srt SRT_DECL_LIST [(new_srt SRT_INIT_DECL [(new_identifier_srt SRT_IDENT_DECL (DTYPE_NSTRUCT [83; 116; 114; 117; 99; 116] 12 4) [115; 116; 114; 117; 99; 116; 117; 114; 101])])]) None (Some [(fun t => tag_define_struct t [83; 116; 114; 117; 99; 116] [([120], DTYPE_CHAR); ([121], DTYPE_INT); ([122], DTYPE_CHAR)])]).
Example test_immcgen_global_struct_decl_ok : test_immcgen_global_struct_decl = Ok
  [new_label_immc IMMC_LABEL_VARIABLE IMMC_VIS_GLOBAL [115; 116; 114; 117; 99; 116; 117; 114; 101];
   new_int_data_immc IMMC_DATA_ZERO (new_signed IInt 12)].
Proof. vm_compute. reflexivity. Qed.
(** tests/immcgen/test_declaration.c test_immcgen_local_function_decl *)
Definition test_immcgen_local_function_decl := local_test true (new_srt SRT_DECL_LIST [(new_srt SRT_INIT_DECL [(new_identifier_srt SRT_IDENT_DECL (DTYPE_FUNCTION [] (DTYPE_POINTER DTYPE_CHAR)) [102])]); (new_srt SRT_INIT_DECL [(new_identifier_srt SRT_IDENT_DECL (DTYPE_FUNCTION [(Some [97], DTYPE_INT)] DTYPE_CHAR) [103])])]) None None.
Example test_immcgen_local_function_decl_ok : test_immcgen_local_function_decl = Ok
  [].
Proof. vm_compute. reflexivity. Qed.
(** tests/immcgen/test_declaration.c test_immcgen_global_function_decl *)
Definition test_immcgen_global_function_decl := global_test (new_srt SRT_DECL_LIST [(new_srt SRT_INIT_DECL [(new_identifier_srt SRT_IDENT_DECL (DTYPE_FUNCTION [] (DTYPE_POINTER DTYPE_CHAR)) [102])]); (new_srt SRT_INIT_DECL [(new_identifier_srt SRT_IDENT_DECL (DTYPE_FUNCTION [(Some [97], DTYPE_INT)] DTYPE_CHAR) [103])])]) None None.
Example test_immcgen_global_function_decl_ok : test_immcgen_global_function_decl = Ok
  [].
Proof. vm_compute. reflexivity. Qed.
(** tests/immcgen/test_declaration.c test_immcgen_local_struct_tag_decl *)
Definition test_immcgen_local_struct_tag_decl := local_test true (new_identifier_srt SRT_TAG_DECL (ust [([120], DTYPE_INT); ([121], DTYPE_INT)]) [83; 116; 114; 117; 99; 116]) None None.
Example test_immcgen_local_struct_tag_decl_ok : test_immcgen_local_struct_tag_decl = Ok
  [].
Proof. vm_compute. reflexivity. Qed.
(** tests/immcgen/test_declaration.c test_immcgen_global_struct_tag_decl *)
Definition test_immcgen_global_struct_tag_decl := global_test (new_identifier_srt SRT_TAG_DECL (ust [([120], DTYPE_INT); ([121], DTYPE_INT)]) [83; 116; 114; 117; 99; 116]) None None.
Example test_immcgen_global_struct_tag_decl_ok : test_immcgen_global_struct_tag_decl = Ok
  [].
Proof. vm_compute. reflexivity. Qed.
(** tests/immcgen/test_declaration.c test_immcgen_local_scalar_init *)
Definition test_immcgen_local_scalar_init := local_test true (new_srt SRT_DECL_LIST [(new_srt SRT_INIT_DECL [(new_identifier_srt SRT_IDENT_DECL DTYPE_CHAR [99]); (new_srt SRT_INIT [(new_dtyped_srt SRT_CAST_EXPR DTYPE_CHAR [(new_iliteral_srt DTYPE_INT (new_signed IInt 89))])])]); (new_srt SRT_INIT_DECL [(new_identifier_srt SRT_IDENT_DECL DTYPE_INT [105]); (new_srt SRT_INIT [(new_dtyped_srt SRT_ASSIGN_EXPR DTYPE_INT [(new_dtyped_srt SRT_ADDR_EXPR (DTYPE_POINTER DTYPE_INT) [(new_identifier_srt SRT_IDENT_EXPR DTYPE_INT [120])]); (new_iliteral_srt DTYPE_INT (new_signed IInt 2))])])]); (new_srt SRT_INIT_DECL [(new_identifier_srt SRT_IDENT_DECL DTYPE_INT [106]); (new_srt SRT_INIT [(new_dtyped_srt SRT_CAST_EXPR DTYPE_INT [(new_identifier_srt SRT_IDENT_EXPR DTYPE_CHAR [121])])])]); (new_srt SRT_INIT_DECL [(new_identifier_srt SRT_IDENT_DECL DTYPE_UNSIGNED_LONG [117; 108]); (new_srt SRT_INIT [(new_dtyped_srt SRT_CAST_EXPR DTYPE_UNSIGNED_LONG [(new_iliteral_srt DTYPE_INT (new_signed IInt 2147483647))])])])]) (Some [(fun t => sym_define_memory t [120] DTYPE_INT); (fun t => sym_define_memory t [121] DTYPE_CHAR)]) None.
Example test_immcgen_local_scalar_init_ok : test_immcgen_local_scalar_init = Ok
  [new_inst_immc IMMC_INST_STORE (Some (new_mem_immcope 12)) (Some (new_signed_int_immcope IMMC_SUFFIX_BYTE IInt 89)) None;
   new_inst_immc IMMC_INST_LOAD (Some (new_signed_reg_immcope IMMC_SUFFIX_LONG 0)) (Some (new_signed_int_immcope IMMC_SUFFIX_LONG IInt 2)) None;
   new_inst_immc IMMC_INST_STORE (Some (new_mem_immcope 4)) (Some (new_signed_reg_immcope IMMC_SUFFIX_LONG 0)) None;
   new_inst_immc IMMC_INST_STORE (Some (new_mem_immcope 16)) (Some (new_signed_reg_immcope IMMC_SUFFIX_LONG 0)) None;
   new_inst_immc IMMC_INST_LOAD (Some (new_signed_reg_immcope IMMC_SUFFIX_BYTE 1)) (Some (new_mem_immcope 8)) None;
   new_inst_immc IMMC_INST_LOAD (Some (new_signed_reg_immcope IMMC_SUFFIX_LONG 2)) (Some (new_signed_reg_immcope IMMC_SUFFIX_BYTE 1)) None;
   new_inst_immc IMMC_INST_STORE (Some (new_mem_immcope 20)) (Some (new_signed_reg_immcope IMMC_SUFFIX_LONG 2)) None;
   new_inst_immc IMMC_INST_STORE (Some (new_mem_immcope 28)) (Some (new_unsigned_int_immcope IMMC_SUFFIX_QUAD IULong 2147483647)) None].
Proof. vm_compute. reflexivity. Qed.
(** tests/immcgen/test_declaration.c test_immcgen_global_scalar_init *)
Definition test_immcgen_global_scalar_init := global_test (new_srt SRT_DECL_LIST [(new_srt SRT_INIT_DECL [(new_identifier_srt SRT_IDENT_DECL DTYPE_CHAR [99]); (new_srt SRT_INIT [(new_dtyped_srt SRT_CAST_EXPR DTYPE_CHAR [(new_iliteral_srt DTYPE_INT (new_signed IInt 89))])])]); (new_srt SRT_INIT_DECL [(new_identifier_srt SRT_IDENT_DECL DTYPE_INT [105]); (new_srt SRT_INIT [(new_iliteral_srt DTYPE_INT (new_signed IInt 2))])]); (new_srt SRT_INIT_DECL [(new_identifier_srt SRT_IDENT_DECL DTYPE_UNSIGNED_LONG [117; 108]); (new_srt SRT_INIT [(new_dtyped_srt SRT_CAST_EXPR DTYPE_UNSIGNED_LONG [(new_iliteral_srt DTYPE_INT (new_signed IInt 2147483647))])])])]) None None.
Example test_immcgen_global_scalar_init_ok : test_immcgen_global_scalar_init = Ok
  [new_label_immc IMMC_LABEL_VARIABLE IMMC_VIS_GLOBAL [99];
   new_int_data_immc IMMC_DATA_BYTE (new_signed IInt 89);
   new_label_immc IMMC_LABEL_VARIABLE IMMC_VIS_GLOBAL [105];
   new_int_data_immc IMMC_DATA_LONG (new_signed IInt 2);
   new_label_immc IMMC_LABEL_VARIABLE IMMC_VIS_GLOBAL [117; 108];
   new_int_data_immc IMMC_DATA_QUAD (new_unsigned IULong 2147483647)].
Proof. vm_compute. reflexivity. Qed.
(** tests/immcgen/test_declaration.c test_immcgen_local_sliteral_init *)
Definition test_immcgen_local_sliteral_init := local_test true (new_srt SRT_DECL_LIST [(new_srt SRT_INIT_DECL [(new_identifier_srt SRT_IDENT_DECL (DTYPE_ARRAY DTYPE_CHAR 6) [115]); (new_srt SRT_INIT [(new_sliteral_srt (DTYPE_ARRAY DTYPE_CHAR 6) [108; 111; 99; 97; 108; 0])])])]) None None.
Example test_immcgen_local_sliteral_init_ok : test_immcgen_local_sliteral_init = Ok
  [new_inst_immc IMMC_INST_STR (Some (new_mem_immcope 8)) (Some (new_str_immcope [108; 111; 99; 97; 108; 0])) None].
Proof. vm_compute. reflexivity. Qed.
(** tests/immcgen/test_declaration.c test_immcgen_global_sliteral_init *)
Definition test_immcgen_global_sliteral_init := global_test (new_srt SRT_DECL_LIST [(new_srt SRT_INIT_DECL [(new_identifier_srt SRT_IDENT_DECL (DTYPE_ARRAY DTYPE_CHAR 7) [115]); (new_srt SRT_INIT [(new_sliteral_srt (DTYPE_ARRAY DTYPE_CHAR 7) [103; 108; 111; 98; 97; 108; 0])])])]) None None.
Example test_immcgen_global_sliteral_init_ok : test_immcgen_global_sliteral_init = Ok
  [new_label_immc IMMC_LABEL_VARIABLE IMMC_VIS_GLOBAL [115];
   new_str_data_immc IMMC_DATA_STR [103; 108; 111; 98; 97; 108; 0]].
Proof. vm_compute. reflexivity. Qed.
(** tests/immcgen/test_declaration.c test_immcgen_local_array_init *)
Definition test_immcgen_local_array_init := local_test true (new_srt SRT_DECL_LIST [(new_srt SRT_INIT_DECL [(new_identifier_srt SRT_IDENT_DECL (DTYPE_ARRAY DTYPE_INT 2) [97]); (new_srt SRT_INIT [(new_srt SRT_INIT [(new_iliteral_srt DTYPE_INT (new_signed IInt 1))]); (new_srt SRT_INIT [(new_iliteral_srt DTYPE_INT (new_signed IInt 2))])])]); (new_srt SRT_INIT_DECL [(new_identifier_srt SRT_IDENT_DECL (DTYPE_ARRAY (DTYPE_ARRAY DTYPE_INT 2) 3) [98]); (new_srt SRT_INIT [(new_srt SRT_INIT [(new_srt SRT_INIT [(new_iliteral_srt DTYPE_INT (new_signed IInt 6))]); (new_srt SRT_INIT [(new_iliteral_srt DTYPE_INT (new_signed IInt 7))])]); (new_srt SRT_INIT [(new_srt SRT_INIT [(new_iliteral_srt DTYPE_INT (new_signed IInt 8))]); (new_srt SRT_INIT [(new_iliteral_srt DTYPE_INT (new_signed IInt 0))])]); (new_srt SRT_INIT [(new_srt SRT_INIT [(new_iliteral_srt DTYPE_INT (new_signed IInt 0))]); (new_srt SRT_INIT [(new_iliteral_srt DTYPE_INT (new_signed IInt 0))])])])])]) None None.
Example test_immcgen_local_array_init_ok : test_immcgen_local_array_init = Ok
  [new_inst_immc IMMC_INST_STORE (Some (new_mem_immcope 8)) (Some (new_signed_int_immcope IMMC_SUFFIX_LONG IInt 1)) None;
   new_inst_immc IMMC_INST_STORE (Some (new_mem_immcope 4)) (Some (new_signed_int_immcope IMMC_SUFFIX_LONG IInt 2)) None;
   new_inst_immc IMMC_INST_STORE (Some (new_mem_immcope 32)) (Some (new_signed_int_immcope IMMC_SUFFIX_LONG IInt 6)) None;
   new_inst_immc IMMC_INST_STORE (Some (new_mem_immcope 28)) (Some (new_signed_int_immcope IMMC_SUFFIX_LONG IInt 7)) None;
   new_inst_immc IMMC_INST_STORE (Some (new_mem_immcope 24)) (Some (new_signed_int_immcope IMMC_SUFFIX_LONG IInt 8)) None;
   new_inst_immc IMMC_INST_STORE (Some (new_mem_immcope 20)) (Some (new_signed_int_immcope IMMC_SUFFIX_LONG IInt 0)) None;
   new_inst_immc IMMC_INST_STORE (Some (new_mem_immcope 16)) (Some (new_signed_int_immcope IMMC_SUFFIX_LONG IInt 0)) None;
   new_inst_immc IMMC_INST_STORE (Some (new_mem_immcope 12)) (Some (new_signed_int_immcope IMMC_SUFFIX_LONG IInt 0)) None].
Proof. vm_compute. reflexivity. Qed.
(** tests/immcgen/test_declaration.c test_immcgen_global_array_init *)
Definition test_immcgen_global_array_init := global_test (new_srt SRT_DECL_LIST [(new_srt SRT_INIT_DECL [(new_identifier_srt SRT_IDENT_DECL (DTYPE_ARRAY DTYPE_INT 2) [97]); (new_srt SRT_INIT [(new_srt SRT_INIT [(new_iliteral_srt DTYPE_INT (new_signed IInt 1))]); (new_srt SRT_INIT [(new_iliteral_srt DTYPE_INT (new_signed IInt 2))])])]); (new_srt SRT_INIT_DECL [(new_identifier_srt SRT_IDENT_DECL (DTYPE_ARRAY (DTYPE_ARRAY DTYPE_INT 2) 3) [98]); (new_srt SRT_INIT [(new_srt SRT_INIT [(new_srt SRT_INIT [(new_iliteral_srt DTYPE_INT (new_signed IInt 6))]); (new_srt SRT_INIT [(new_iliteral_srt DTYPE_INT (new_signed IInt 7))])]); (new_srt SRT_INIT [(new_srt SRT_INIT [(new_iliteral_srt DTYPE_INT (new_signed IInt 8))]); (new_srt SRT_INIT [(new_iliteral_srt DTYPE_INT (new_signed IInt 0))])]); (new_srt SRT_INIT [(new_srt SRT_INIT [(new_iliteral_srt DTYPE_INT (new_signed IInt 0))]); (new_srt SRT_INIT [(new_iliteral_srt DTYPE_INT (new_signed IInt 0))])])])])]) None None.
Example test_immcgen_global_array_init_ok : test_immcgen_global_array_init = Ok
  [new_label_immc IMMC_LABEL_VARIABLE IMMC_VIS_GLOBAL [97];
   new_int_data_immc IMMC_DATA_LONG (new_signed IInt 1);
   new_int_data_immc IMMC_DATA_LONG (new_signed IInt 2);
   new_label_immc IMMC_LABEL_VARIABLE IMMC_VIS_GLOBAL [98];
   new_int_data_immc IMMC_DATA_LONG (new_signed IInt 6);
   new_int_data_immc IMMC_DATA_LONG (new_signed IInt 7);
   new_int_data_immc IMMC_DATA_LONG (new_signed IInt 8);
   new_int_data_immc IMMC_DATA_LONG (new_signed IInt 0);
   new_int_data_immc IMMC_DATA_LONG (new_signed IInt 0);
   new_int_data_immc IMMC_DATA_LONG (new_signed IInt 0)].
Proof. vm_compute. reflexivity. Qed.
(** tests/immcgen/test_declaration.c test_immcgen_local_struct_init *)
Definition test_immcgen_local_struct_init := local_test true (new_srt SRT_DECL_LIST [(new_srt SRT_INIT_DECL [(new_identifier_srt SRT_IDENT_DECL (DTYPE_NSTRUCT [83; 116; 114; 117; 99; 116] 12 4) [115; 116; 114; 117; 99; 116; 117; 114; 101]); (new_srt SRT_INIT [(new_srt SRT_INIT [(new_dtyped_srt SRT_CAST_EXPR DTYPE_CHAR [(new_iliteral_srt DTYPE_INT (new_signed IInt 3))])]); (new_srt SRT_INIT [(new_iliteral_srt DTYPE_INT (new_signed IInt 2))]); (new_srt SRT_INIT [(new_dtyped_srt SRT_CAST_EXPR DTYPE_CHAR [(new_iliteral_srt DTYPE_INT (new_signed IInt 0))])])])])]) None (Some [(fun t => tag_define_struct t [83; 116; 114; 117; 99; 116] [([120], DTYPE_CHAR); ([121], DTYPE_INT); ([122], DTYPE_CHAR)])]).
Example test_immcgen_local_struct_init_ok : test_immcgen_local_struct_init = Ok
  [new_inst_immc IMMC_INST_STORE (Some (new_mem_immcope 12)) (Some (new_signed_int_immcope IMMC_SUFFIX_BYTE IInt 3)) None;
   new_inst_immc IMMC_INST_STORE (Some (new_mem_immcope 8)) (Some (new_signed_int_immcope IMMC_SUFFIX_LONG IInt 2)) None;
   new_inst_immc IMMC_INST_STORE (Some (new_mem_immcope 4)) (Some (new_signed_int_immcope IMMC_SUFFIX_BYTE IInt 0)) None].
Proof. vm_compute. reflexivity. Qed.
(** tests/immcgen/test_declaration.c test_immcgen_global_struct_init *)
Definition test_immcgen_global_struct_init := global_test (new_srt SRT_DECL_LIST [(new_srt SRT_INIT_DECL [(new_identifier_srt SRT_IDENT_DECL (DTYPE_NSTRUCT [83; 116; 114; 117; 99; 116] 12 4) [115; 116; 114; 117; 99; 116; 117; 114; 101]); (new_srt SRT_INIT [(new_srt SRT_INIT [(new_dtyped_srt SRT_CAST_EXPR DTYPE_CHAR [(new_iliteral_srt DTYPE_INT (new_signed IInt 3))])]); (new_srt SRT_INIT [(new_iliteral_srt DTYPE_INT (new_signed IInt 2))]); (new_srt SRT_INIT [(new_dtyped_srt SRT_CAST_EXPR DTYPE_CHAR [(new_iliteral_srt DTYPE_INT (new_signed IInt 0))])])])])]) None (Some [(fun t => tag_define_struct t [83; 116; 114; 117; 99; 116] [([120], DTYPE_CHAR); ([121], DTYPE_INT); ([122], DTYPE_CHAR)])]).
Example test_immcgen_global_struct_init_ok : test_immcgen_global_struct_init = Ok
  [new_label_immc IMMC_LABEL_VARIABLE IMMC_VIS_GLOBAL [115; 116; 114; 117; 99; 116; 117; 114; 101];
   new_int_data_immc IMMC_DATA_BYTE (new_signed IInt 3);
   new_int_data_immc IMMC_DATA_ZERO (new_signed IInt 3);
   new_int_data_immc IMMC_DATA_LONG (new_signed IInt 2);
   new_int_data_immc IMMC_DATA_BYTE (new_signed IInt 0);
   new_int_data_immc IMMC_DATA_ZERO (new_signed IInt 3)].
Proof. vm_compute. reflexivity. Qed.
(** tests/immcgen/test_expression.c test_immcgen_assignment_expr *)
Definition test_immcgen_assignment_expr := local_test false (new_dtyped_srt SRT_ASSIGN_EXPR DTYPE_CHAR [(new_dtyped_srt SRT_ADDR_EXPR (DTYPE_POINTER DTYPE_CHAR) [(new_dtyped_srt SRT_INDIR_EXPR DTYPE_CHAR [(new_identifier_srt SRT_IDENT_EXPR (DTYPE_POINTER DTYPE_CHAR) [120])])]); (new_dtyped_srt SRT_CAST_EXPR DTYPE_CHAR [(new_dtyped_srt SRT_ASSIGN_EXPR DTYPE_INT [(new_dtyped_srt SRT_ADDR_EXPR (DTYPE_POINTER DTYPE_INT) [(new_identifier_srt SRT_IDENT_EXPR DTYPE_INT [121])]); (new_iliteral_srt DTYPE_INT (new_signed IInt 0))])])]) (Some [(fun t => sym_define_memory t [120] (DTYPE_POINTER DTYPE_CHAR)); (fun t => sym_define_memory t [121] DTYPE_INT)]) None.
Example test_immcgen_assignment_expr_ok : test_immcgen_assignment_expr = Ok
  [new_inst_immc IMMC_INST_LOAD (Some (new_signed_reg_immcope IMMC_SUFFIX_LONG 0)) (Some (new_signed_int_immcope IMMC_SUFFIX_LONG IInt 0)) None;
   new_inst_immc IMMC_INST_STORE (Some (new_mem_immcope 12)) (Some (new_signed_reg_immcope IMMC_SUFFIX_LONG 0)) None;
   new_inst_immc IMMC_INST_LOAD (Some (new_signed_reg_immcope IMMC_SUFFIX_BYTE 1)) (Some (new_signed_reg_immcope IMMC_SUFFIX_LONG 0)) None;
   new_inst_immc IMMC_INST_LOAD (Some (new_signed_reg_immcope IMMC_SUFFIX_QUAD 2)) (Some (new_mem_immcope 8)) None;
   new_inst_immc IMMC_INST_STORE (Some (new_ptr_immcope 2)) (Some (new_signed_reg_immcope IMMC_SUFFIX_BYTE 1)) None].
Proof. vm_compute. reflexivity. Qed.
(** tests/immcgen/test_expression.c test_immcgen_conditional_expr *)
Definition test_immcgen_conditional_expr := local_test false (new_dtyped_srt SRT_COND_EXPR DTYPE_INT [(new_dtyped_srt SRT_GREATEREQ_EXPR DTYPE_INT [(new_identifier_srt SRT_IDENT_EXPR DTYPE_INT [120]); (new_iliteral_srt DTYPE_INT (new_signed IInt 0))]); (new_identifier_srt SRT_IDENT_EXPR DTYPE_INT [120]); (new_dtyped_srt SRT_NEG_EXPR DTYPE_INT [(new_identifier_srt SRT_IDENT_EXPR DTYPE_INT [120])])]) (Some [(fun t => sym_define_memory t [120] DTYPE_INT)]) None.
Example test_immcgen_conditional_expr_ok : test_immcgen_conditional_expr = Ok
  [new_inst_immc IMMC_INST_LOAD (Some (new_signed_reg_immcope IMMC_SUFFIX_LONG 0)) (Some (new_mem_immcope 4)) None;
   new_inst_immc IMMC_INST_JLT (Some (new_label_immcope [46; 76; 48])) (Some (new_signed_reg_immcope IMMC_SUFFIX_LONG 0)) (Some (new_signed_int_immcope IMMC_SUFFIX_LONG IInt 0));
   new_inst_immc IMMC_INST_LOAD (Some (new_signed_reg_immcope IMMC_SUFFIX_LONG 2)) (Some (new_mem_immcope 4)) None;
   new_inst_immc IMMC_INST_LOAD (Some (new_signed_reg_immcope IMMC_SUFFIX_LONG 1)) (Some (new_signed_reg_immcope IMMC_SUFFIX_LONG 2)) None;
   new_inst_immc IMMC_INST_JMP (Some (new_label_immcope [46; 76; 49])) None None;
   new_label_immc IMMC_LABEL_NORMAL IMMC_VIS_NONE [46; 76; 48];
   new_inst_immc IMMC_INST_LOAD (Some (new_signed_reg_immcope IMMC_SUFFIX_LONG 3)) (Some (new_mem_immcope 4)) None;
   new_inst_immc IMMC_INST_NEG (Some (new_signed_reg_immcope IMMC_SUFFIX_LONG 4)) (Some (new_signed_reg_immcope IMMC_SUFFIX_LONG 3)) None;
   new_inst_immc IMMC_INST_LOAD (Some (new_signed_reg_immcope IMMC_SUFFIX_LONG 1)) (Some (new_signed_reg_immcope IMMC_SUFFIX_LONG 4)) None;
   new_label_immc IMMC_LABEL_NORMAL IMMC_VIS_NONE [46; 76; 49]].
Proof. vm_compute. reflexivity. Qed.
(** tests/immcgen/test_expression.c test_immcgen_conditional_expr_chain *)
Definition test_immcgen_conditional_expr_chain := local_test false (new_dtyped_srt SRT_COND_EXPR DTYPE_INT [(new_dtyped_srt SRT_GREATER_EXPR DTYPE_INT [(new_identifier_srt SRT_IDENT_EXPR DTYPE_INT [120]); (new_iliteral_srt DTYPE_INT (new_signed IInt 0))]); (new_identifier_srt SRT_IDENT_EXPR DTYPE_INT [120]); (new_dtyped_srt SRT_COND_EXPR DTYPE_INT [(new_dtyped_srt SRT_LESS_EXPR DTYPE_INT [(new_identifier_srt SRT_IDENT_EXPR DTYPE_INT [120]); (new_iliteral_srt DTYPE_INT (new_signed IInt 0))]); (new_dtyped_srt SRT_NEG_EXPR DTYPE_INT [(new_identifier_srt SRT_IDENT_EXPR DTYPE_INT [120])]); (new_iliteral_srt DTYPE_INT (new_signed IInt 0))])]) (Some [(fun t => sym_define_memory t [120] DTYPE_INT)]) None.
Example test_immcgen_conditional_expr_chain_ok : test_immcgen_conditional_expr_chain = Ok
  [new_inst_immc IMMC_INST_LOAD (Some (new_signed_reg_immcope IMMC_SUFFIX_LONG 0)) (Some (new_mem_immcope 4)) None;
   new_inst_immc IMMC_INST_JLEQ (Some (new_label_immcope [46; 76; 48])) (Some (new_signed_reg_immcope IMMC_SUFFIX_LONG 0)) (Some (new_signed_int_immcope IMMC_SUFFIX_LONG IInt 0));
   new_inst_immc IMMC_INST_LOAD (Some (new_signed_reg_immcope IMMC_SUFFIX_LONG 2)) (Some (new_mem_immcope 4)) None;
   new_inst_immc IMMC_INST_LOAD (Some (new_signed_reg_immcope IMMC_SUFFIX_LONG 1)) (Some (new_signed_reg_immcope IMMC_SUFFIX_LONG 2)) None;
   new_inst_immc IMMC_INST_JMP (Some (new_label_immcope [46; 76; 49])) None None;
   new_label_immc IMMC_LABEL_NORMAL IMMC_VIS_NONE [46; 76; 48];
   new_inst_immc IMMC_INST_LOAD (Some (new_signed_reg_immcope IMMC_SUFFIX_LONG 3)) (Some (new_mem_immcope 4)) None;
   new_inst_immc IMMC_INST_JGEQ (Some (new_label_immcope [46; 76; 50])) (Some (new_signed_reg_immcope IMMC_SUFFIX_LONG 3)) (Some (new_signed_int_immcope IMMC_SUFFIX_LONG IInt 0));
   new_inst_immc IMMC_INST_LOAD (Some (new_signed_reg_immcope IMMC_SUFFIX_LONG 5)) (Some (new_mem_immcope 4)) None;
   new_inst_immc IMMC_INST_NEG (Some (new_signed_reg_immcope IMMC_SUFFIX_LONG 6)) (Some (new_signed_reg_immcope IMMC_SUFFIX_LONG 5)) None;
   new_inst_immc IMMC_INST_LOAD (Some (new_signed_reg_immcope IMMC_SUFFIX_LONG 4)) (Some (new_signed_reg_immcope IMMC_SUFFIX_LONG 6)) None;
   new_inst_immc IMMC_INST_JMP (Some (new_label_immcope [46; 76; 51])) None None;
   new_label_immc IMMC_LABEL_NORMAL IMMC_VIS_NONE [46; 76; 50];
   new_inst_immc IMMC_INST_LOAD (Some (new_signed_reg_immcope IMMC_SUFFIX_LONG 7)) (Some (new_signed_int_immcope IMMC_SUFFIX_LONG IInt 0)) None;
   new_inst_immc IMMC_INST_LOAD (Some (new_signed_reg_immcope IMMC_SUFFIX_LONG 4)) (Some (new_signed_reg_immcope IMMC_SUFFIX_LONG 7)) None;
   new_label_immc IMMC_LABEL_NORMAL IMMC_VIS_NONE [46; 76; 51];
   new_inst_immc IMMC_INST_LOAD (Some (new_signed_reg_immcope IMMC_SUFFIX_LONG 1)) (Some (new_signed_reg_immcope IMMC_SUFFIX_LONG 4)) None;
   new_label_immc IMMC_LABEL_NORMAL IMMC_VIS_NONE [46; 76; 49]].
Proof. vm_compute. reflexivity. Qed.
(** tests/immcgen/test_expression.c test_immcgen_logical_or_expr *)
Definition test_immcgen_logical_or_expr := local_test false (new_dtyped_srt SRT_LOR_EXPR DTYPE_INT [(new_dtyped_srt SRT_EQUAL_EXPR DTYPE_INT [(new_identifier_srt SRT_IDENT_EXPR DTYPE_INT [105]); (new_iliteral_srt DTYPE_INT (new_signed IInt 0))]); (new_dtyped_srt SRT_EQUAL_EXPR DTYPE_INT [(new_identifier_srt SRT_IDENT_EXPR DTYPE_INT [105]); (new_dtyped_srt SRT_CAST_EXPR DTYPE_INT [(new_identifier_srt SRT_IDENT_EXPR DTYPE_CHAR [110])])])]) (Some [(fun t => sym_define_memory t [105] DTYPE_INT); (fun t => sym_define_memory t [110] DTYPE_CHAR)]) None.
Example test_immcgen_logical_or_expr_ok : test_immcgen_logical_or_expr = Ok
  [new_inst_immc IMMC_INST_LOAD (Some (new_signed_reg_immcope IMMC_SUFFIX_LONG 0)) (Some (new_mem_immcope 4)) None;
   new_inst_immc IMMC_INST_JEQ (Some (new_label_immcope [46; 76; 48])) (Some (new_signed_reg_immcope IMMC_SUFFIX_LONG 0)) (Some (new_signed_int_immcope IMMC_SUFFIX_LONG IInt 0));
   new_inst_immc IMMC_INST_LOAD (Some (new_signed_reg_immcope IMMC_SUFFIX_LONG 1)) (Some (new_mem_immcope 4)) None;
   new_inst_immc IMMC_INST_LOAD (Some (new_signed_reg_immcope IMMC_SUFFIX_BYTE 2)) (Some (new_mem_immcope 8)) None;
   new_inst_immc IMMC_INST_LOAD (Some (new_signed_reg_immcope IMMC_SUFFIX_LONG 3)) (Some (new_signed_reg_immcope IMMC_SUFFIX_BYTE 2)) None;
   new_inst_immc IMMC_INST_JEQ (Some (new_label_immcope [46; 76; 48])) (Some (new_signed_reg_immcope IMMC_SUFFIX_LONG 1)) (Some (new_signed_reg_immcope IMMC_SUFFIX_LONG 3));
   new_inst_immc IMMC_INST_LOAD (Some (new_signed_reg_immcope IMMC_SUFFIX_LONG 4)) (Some (new_signed_int_immcope IMMC_SUFFIX_LONG IInt 0)) None;
   new_inst_immc IMMC_INST_JMP (Some (new_label_immcope [46; 76; 49])) None None;
   new_label_immc IMMC_LABEL_NORMAL IMMC_VIS_NONE [46; 76; 48];
   new_inst_immc IMMC_INST_LOAD (Some (new_signed_reg_immcope IMMC_SUFFIX_LONG 4)) (Some (new_signed_int_immcope IMMC_SUFFIX_LONG IInt 1)) None;
   new_label_immc IMMC_LABEL_NORMAL IMMC_VIS_NONE [46; 76; 49]].
Proof. vm_compute. reflexivity. Qed.
(** tests/immcgen/test_expression.c test_immcgen_logical_and_expr *)
Definition test_immcgen_logical_and_expr := local_test false (new_dtyped_srt SRT_LAND_EXPR DTYPE_INT [(new_dtyped_srt SRT_NEQUAL_EXPR DTYPE_INT [(new_identifier_srt SRT_IDENT_EXPR DTYPE_INT [99; 104; 101; 99; 107]); (new_iliteral_srt DTYPE_INT (new_signed IInt 0))]); (new_dtyped_srt SRT_CALL_EXPR DTYPE_INT [(new_dtyped_srt SRT_ADDR_EXPR (DTYPE_POINTER (DTYPE_FUNCTION [(Some [116; 97; 114; 103; 101; 116], (DTYPE_POINTER DTYPE_CHAR))] DTYPE_INT)) [(new_identifier_srt SRT_IDENT_EXPR (DTYPE_FUNCTION [(Some [116; 97; 114; 103; 101; 116], (DTYPE_POINTER DTYPE_CHAR))] DTYPE_INT) [118; 97; 108; 105; 100; 97; 116; 101])]); (new_srt SRT_ARG_LIST [(new_dtyped_srt SRT_ADDR_EXPR (DTYPE_POINTER DTYPE_CHAR) [(new_identifier_srt SRT_IDENT_EXPR (DTYPE_ARRAY DTYPE_CHAR 6) [111; 98; 106; 101; 99; 116])])])])]) (Some [(fun t => sym_define_memory t [99; 104; 101; 99; 107] DTYPE_INT); (fun t => sym_define_memory t [111; 98; 106; 101; 99; 116] (DTYPE_ARRAY DTYPE_CHAR 6)); (fun t => sym_define_label t [118; 97; 108; 105; 100; 97; 116; 101] (DTYPE_FUNCTION [(Some [116; 97; 114; 103; 101; 116], (DTYPE_POINTER DTYPE_CHAR))] DTYPE_INT))]) None.
Example test_immcgen_logical_and_expr_ok : test_immcgen_logical_and_expr = Ok
  [new_inst_immc IMMC_INST_LOAD (Some (new_signed_reg_immcope IMMC_SUFFIX_LONG 0)) (Some (new_mem_immcope 4)) None;
   new_inst_immc IMMC_INST_JEQ (Some (new_label_immcope [46; 76; 48])) (Some (new_signed_reg_immcope IMMC_SUFFIX_LONG 0)) (Some (new_signed_int_immcope IMMC_SUFFIX_LONG IInt 0));
   new_inst_immc IMMC_INST_PREP None (Some (new_signed_int_immcope IMMC_SUFFIX_NONE IInt 1)) None;
   new_inst_immc IMMC_INST_ADDR (Some (new_signed_reg_immcope IMMC_SUFFIX_QUAD 1)) (Some (new_mem_immcope 12)) None;
   new_inst_immc IMMC_INST_STARG (Some (new_signed_arg_immcope IMMC_SUFFIX_QUAD 0)) (Some (new_signed_reg_immcope IMMC_SUFFIX_QUAD 1)) None;
   new_inst_immc IMMC_INST_CALL (Some (new_signed_reg_immcope IMMC_SUFFIX_LONG 2)) (Some (new_label_immcope [118; 97; 108; 105; 100; 97; 116; 101])) (Some (new_signed_int_immcope IMMC_SUFFIX_NONE IInt 1));
   new_inst_immc IMMC_INST_CLEAN None (Some (new_signed_int_immcope IMMC_SUFFIX_NONE IInt 1)) None;
   new_inst_immc IMMC_INST_JEQ (Some (new_label_immcope [46; 76; 48])) (Some (new_signed_reg_immcope IMMC_SUFFIX_LONG 2)) (Some (new_signed_int_immcope IMMC_SUFFIX_LONG IInt 0));
   new_inst_immc IMMC_INST_LOAD (Some (new_signed_reg_immcope IMMC_SUFFIX_LONG 3)) (Some (new_signed_int_immcope IMMC_SUFFIX_LONG IInt 1)) None;
   new_inst_immc IMMC_INST_JMP (Some (new_label_immcope [46; 76; 49])) None None;
   new_label_immc IMMC_LABEL_NORMAL IMMC_VIS_NONE [46; 76; 48];
   new_inst_immc IMMC_INST_LOAD (Some (new_signed_reg_immcope IMMC_SUFFIX_LONG 3)) (Some (new_signed_int_immcope IMMC_SUFFIX_LONG IInt 0)) None;
   new_label_immc IMMC_LABEL_NORMAL IMMC_VIS_NONE [46; 76; 49]].
Proof. vm_compute. reflexivity. Qed.
(** tests/immcgen/test_expression.c test_immcgen_bitwise_inclusive_or_expr *)
Definition test_immcgen_bitwise_inclusive_or_expr := local_test false (new_dtyped_srt SRT_OR_EXPR DTYPE_INT [(new_dtyped_srt SRT_CAST_EXPR DTYPE_INT [(new_identifier_srt SRT_IDENT_EXPR DTYPE_CHAR [120])]); (new_dtyped_srt SRT_XOR_EXPR DTYPE_INT [(new_identifier_srt SRT_IDENT_EXPR DTYPE_INT [121]); (new_identifier_srt SRT_IDENT_EXPR DTYPE_INT [122])])]) (Some [(fun t => sym_define_memory t [120] DTYPE_CHAR); (fun t => sym_define_memory t [121] DTYPE_INT); (fun t => sym_define_memory t [122] DTYPE_INT)]) None.
Example test_immcgen_bitwise_inclusive_or_expr_ok : test_immcgen_bitwise_inclusive_or_expr = Ok
  [new_inst_immc IMMC_INST_LOAD (Some (new_signed_reg_immcope IMMC_SUFFIX_BYTE 0)) (Some (new_mem_immcope 4)) None;
   new_inst_immc IMMC_INST_LOAD (Some (new_signed_reg_immcope IMMC_SUFFIX_LONG 1)) (Some (new_signed_reg_immcope IMMC_SUFFIX_BYTE 0)) None;
   new_inst_immc IMMC_INST_LOAD (Some (new_signed_reg_immcope IMMC_SUFFIX_LONG 2)) (Some (new_mem_immcope 8)) None;
   new_inst_immc IMMC_INST_LOAD (Some (new_signed_reg_immcope IMMC_SUFFIX_LONG 3)) (Some (new_mem_immcope 12)) None;
   new_inst_immc IMMC_INST_XOR (Some (new_signed_reg_immcope IMMC_SUFFIX_LONG 4)) (Some (new_signed_reg_immcope IMMC_SUFFIX_LONG 2)) (Some (new_signed_reg_immcope IMMC_SUFFIX_LONG 3));
   new_inst_immc IMMC_INST_OR (Some (new_signed_reg_immcope IMMC_SUFFIX_LONG 5)) (Some (new_signed_reg_immcope IMMC_SUFFIX_LONG 1)) (Some (new_signed_reg_immcope IMMC_SUFFIX_LONG 4))].
Proof. vm_compute. reflexivity. Qed.
(** tests/immcgen/test_expression.c test_immcgen_bitwise_exclusive_or_expr *)
Definition test_immcgen_bitwise_exclusive_or_expr := local_test false (new_dtyped_srt SRT_XOR_EXPR DTYPE_INT [(new_dtyped_srt SRT_CAST_EXPR DTYPE_INT [(new_identifier_srt SRT_IDENT_EXPR DTYPE_CHAR [120])]); (new_dtyped_srt SRT_AND_EXPR DTYPE_INT [(new_identifier_srt SRT_IDENT_EXPR DTYPE_INT [121]); (new_identifier_srt SRT_IDENT_EXPR DTYPE_INT [122])])]) (Some [(fun t => sym_define_memory t [120] DTYPE_CHAR); (fun t => sym_define_memory t [121] DTYPE_INT); (fun t => sym_define_memory t [122] DTYPE_INT)]) None.
Example test_immcgen_bitwise_exclusive_or_expr_ok : test_immcgen_bitwise_exclusive_or_expr = Ok
  [new_inst_immc IMMC_INST_LOAD (Some (new_signed_reg_immcope IMMC_SUFFIX_BYTE 0)) (Some (new_mem_immcope 4)) None;
   new_inst_immc IMMC_INST_LOAD (Some (new_signed_reg_immcope IMMC_SUFFIX_LONG 1)) (Some (new_signed_reg_immcope IMMC_SUFFIX_BYTE 0)) None;
   new_inst_immc IMMC_INST_LOAD (Some (new_signed_reg_immcope IMMC_SUFFIX_LONG 2)) (Some (new_mem_immcope 8)) None;
   new_inst_immc IMMC_INST_LOAD (Some (new_signed_reg_immcope IMMC_SUFFIX_LONG 3)) (Some (new_mem_immcope 12)) None;
   new_inst_immc IMMC_INST_AND (Some (new_signed_reg_immcope IMMC_SUFFIX_LONG 4)) (Some (new_signed_reg_immcope IMMC_SUFFIX_LONG 2)) (Some (new_signed_reg_immcope IMMC_SUFFIX_LONG 3));
   new_inst_immc IMMC_INST_XOR (Some (new_signed_reg_immcope IMMC_SUFFIX_LONG 5)) (Some (new_signed_reg_immcope IMMC_SUFFIX_LONG 1)) (Some (new_signed_reg_immcope IMMC_SUFFIX_LONG 4))].
Proof. vm_compute. reflexivity. Qed.
(** tests/immcgen/test_expression.c test_immcgen_bitwise_and_expr *)
Definition test_immcgen_bitwise_and_expr := local_test false (new_dtyped_srt SRT_AND_EXPR DTYPE_INT [(new_dtyped_srt SRT_EQUAL_EXPR DTYPE_INT [(new_identifier_srt SRT_IDENT_EXPR DTYPE_INT [120]); (new_iliteral_srt DTYPE_INT (new_signed IInt 1))]); (new_dtyped_srt SRT_CAST_EXPR DTYPE_INT [(new_identifier_srt SRT_IDENT_EXPR DTYPE_CHAR [121])])]) (Some [(fun t => sym_define_memory t [120] DTYPE_INT); (fun t => sym_define_memory t [121] DTYPE_CHAR)]) None.
Example test_immcgen_bitwise_and_expr_ok : test_immcgen_bitwise_and_expr = Ok
  [new_inst_immc IMMC_INST_LOAD (Some (new_signed_reg_immcope IMMC_SUFFIX_LONG 0)) (Some (new_mem_immcope 4)) None;
   new_inst_immc IMMC_INST_SETEQ (Some (new_signed_reg_immcope IMMC_SUFFIX_LONG 1)) (Some (new_signed_reg_immcope IMMC_SUFFIX_LONG 0)) (Some (new_signed_int_immcope IMMC_SUFFIX_LONG IInt 1));
   new_inst_immc IMMC_INST_LOAD (Some (new_signed_reg_immcope IMMC_SUFFIX_BYTE 2)) (Some (new_mem_immcope 8)) None;
   new_inst_immc IMMC_INST_LOAD (Some (new_signed_reg_immcope IMMC_SUFFIX_LONG 3)) (Some (new_signed_reg_immcope IMMC_SUFFIX_BYTE 2)) None;
   new_inst_immc IMMC_INST_AND (Some (new_signed_reg_immcope IMMC_SUFFIX_LONG 4)) (Some (new_signed_reg_immcope IMMC_SUFFIX_LONG 1)) (Some (new_signed_reg_immcope IMMC_SUFFIX_LONG 3))].
Proof. vm_compute. reflexivity. Qed.
(** tests/immcgen/test_expression.c test_immcgen_equal_expr *)
Definition test_immcgen_equal_expr := local_test false (new_dtyped_srt SRT_EQUAL_EXPR DTYPE_INT [(new_dtyped_srt SRT_CAST_EXPR DTYPE_INT [(new_identifier_srt SRT_IDENT_EXPR DTYPE_CHAR [120])]); (new_dtyped_srt SRT_CAST_EXPR DTYPE_INT [(new_identifier_srt SRT_IDENT_EXPR DTYPE_CHAR [121])])]) (Some [(fun t => sym_define_memory t [120] DTYPE_CHAR); (fun t => sym_define_memory t [121] DTYPE_CHAR)]) None.
Example test_immcgen_equal_expr_ok : test_immcgen_equal_expr = Ok
  [new_inst_immc IMMC_INST_LOAD (Some (new_signed_reg_immcope IMMC_SUFFIX_BYTE 0)) (Some (new_mem_immcope 4)) None;
   new_inst_immc IMMC_INST_LOAD (Some (new_signed_reg_immcope IMMC_SUFFIX_LONG 1)) (Some (new_signed_reg_immcope IMMC_SUFFIX_BYTE 0)) None;
   new_inst_immc IMMC_INST_LOAD (Some (new_signed_reg_immcope IMMC_SUFFIX_BYTE 2)) (Some (new_mem_immcope 8)) None;
   new_inst_immc IMMC_INST_LOAD (Some (new_signed_reg_immcope IMMC_SUFFIX_LONG 3)) (Some (new_signed_reg_immcope IMMC_SUFFIX_BYTE 2)) None;
   new_inst_immc IMMC_INST_SETEQ (Some (new_signed_reg_immcope IMMC_SUFFIX_LONG 4)) (Some (new_signed_reg_immcope IMMC_SUFFIX_LONG 1)) (Some (new_signed_reg_immcope IMMC_SUFFIX_LONG 3))].
Proof. vm_compute. reflexivity. Qed.
(** tests/immcgen/test_expression.c test_immcgen_not_equal_expr *)
Definition test_immcgen_not_equal_expr := local_test false (new_dtyped_srt SRT_NEQUAL_EXPR DTYPE_INT [(new_dtyped_srt SRT_EQUAL_EXPR DTYPE_INT [(new_identifier_srt SRT_IDENT_EXPR DTYPE_INT [122; 101; 114; 111; 95; 102; 108; 97; 103]); (new_iliteral_srt DTYPE_INT (new_signed IInt 0))]); (new_iliteral_srt DTYPE_INT (new_signed IInt 0))]) (Some [(fun t => sym_define_memory t [122; 101; 114; 111; 95; 102; 108; 97; 103] DTYPE_INT)]) None.
Example test_immcgen_not_equal_expr_ok : test_immcgen_not_equal_expr = Ok
  [new_inst_immc IMMC_INST_LOAD (Some (new_signed_reg_immcope IMMC_SUFFIX_LONG 0)) (Some (new_mem_immcope 4)) None;
   new_inst_immc IMMC_INST_SETEQ (Some (new_signed_reg_immcope IMMC_SUFFIX_LONG 1)) (Some (new_signed_reg_immcope IMMC_SUFFIX_LONG 0)) (Some (new_signed_int_immcope IMMC_SUFFIX_LONG IInt 0));
   new_inst_immc IMMC_INST_SETNEQ (Some (new_signed_reg_immcope IMMC_SUFFIX_LONG 2)) (Some (new_signed_reg_immcope IMMC_SUFFIX_LONG 1)) (Some (new_signed_int_immcope IMMC_SUFFIX_LONG IInt 0))].
Proof. vm_compute. reflexivity. Qed.
(** tests/immcgen/test_expression.c test_immcgen_less_expr *)
Definition test_immcgen_less_expr := local_test false (new_dtyped_srt SRT_LESS_EXPR DTYPE_INT [(new_identifier_srt SRT_IDENT_EXPR DTYPE_INT [105]); (new_dtyped_srt SRT_CAST_EXPR DTYPE_INT [(new_identifier_srt SRT_IDENT_EXPR DTYPE_CHAR [109])])]) (Some [(fun t => sym_define_memory t [105] DTYPE_INT); (fun t => sym_define_memory t [109] DTYPE_CHAR)]) None.
Example test_immcgen_less_expr_ok : test_immcgen_less_expr = Ok
  [new_inst_immc IMMC_INST_LOAD (Some (new_signed_reg_immcope IMMC_SUFFIX_LONG 0)) (Some (new_mem_immcope 4)) None;
   new_inst_immc IMMC_INST_LOAD (Some (new_signed_reg_immcope IMMC_SUFFIX_BYTE 1)) (Some (new_mem_immcope 8)) None;
   new_inst_immc IMMC_INST_LOAD (Some (new_signed_reg_immcope IMMC_SUFFIX_LONG 2)) (Some (new_signed_reg_immcope IMMC_SUFFIX_BYTE 1)) None;
   new_inst_immc IMMC_INST_SETLT (Some (new_signed_reg_immcope IMMC_SUFFIX_LONG 3)) (Some (new_signed_reg_immcope IMMC_SUFFIX_LONG 0)) (Some (new_signed_reg_immcope IMMC_SUFFIX_LONG 2))].
Proof. vm_compute. reflexivity. Qed.
(** tests/immcgen/test_expression.c test_immcgen_greater_expr *)
Definition test_immcgen_greater_expr := local_test false (new_dtyped_srt SRT_GREATER_EXPR DTYPE_INT [(new_identifier_srt SRT_IDENT_EXPR DTYPE_INT [106]); (new_iliteral_srt DTYPE_INT (new_signed IInt 0))]) (Some [(fun t => sym_define_memory t [106] DTYPE_INT)]) None.
Example test_immcgen_greater_expr_ok : test_immcgen_greater_expr = Ok
  [new_inst_immc IMMC_INST_LOAD (Some (new_signed_reg_immcope IMMC_SUFFIX_LONG 0)) (Some (new_mem_immcope 4)) None;
   new_inst_immc IMMC_INST_SETGT (Some (new_signed_reg_immcope IMMC_SUFFIX_LONG 1)) (Some (new_signed_reg_immcope IMMC_SUFFIX_LONG 0)) (Some (new_signed_int_immcope IMMC_SUFFIX_LONG IInt 0))].
Proof. vm_compute. reflexivity. Qed.
(** tests/immcgen/test_expression.c test_immcgen_less_equal_expr *)
Definition test_immcgen_less_equal_expr := local_test false (new_dtyped_srt SRT_LESSEQ_EXPR DTYPE_INT [(new_identifier_srt SRT_IDENT_EXPR DTYPE_INT [105]); (new_dtyped_srt SRT_CAST_EXPR DTYPE_INT [(new_identifier_srt SRT_IDENT_EXPR DTYPE_CHAR [109])])]) (Some [(fun t => sym_define_memory t [105] DTYPE_INT); (fun t => sym_define_memory t [109] DTYPE_CHAR)]) None.
Example test_immcgen_less_equal_expr_ok : test_immcgen_less_equal_expr = Ok
  [new_inst_immc IMMC_INST_LOAD (Some (new_signed_reg_immcope IMMC_SUFFIX_LONG 0)) (Some (new_mem_immcope 4)) None;
   new_inst_immc IMMC_INST_LOAD (Some (new_signed_reg_immcope IMMC_SUFFIX_BYTE 1)) (Some (new_mem_immcope 8)) None;
   new_inst_immc IMMC_INST_LOAD (Some (new_signed_reg_immcope IMMC_SUFFIX_LONG 2)) (Some (new_signed_reg_immcope IMMC_SUFFIX_BYTE 1)) None;
   new_inst_immc IMMC_INST_SETLEQ (Some (new_signed_reg_immcope IMMC_SUFFIX_LONG 3)) (Some (new_signed_reg_immcope IMMC_SUFFIX_LONG 0)) (Some (new_signed_reg_immcope IMMC_SUFFIX_LONG 2))].
Proof. vm_compute. reflexivity. Qed.
(** tests/immcgen/test_expression.c test_immcgen_greater_equal_expr *)
Definition test_immcgen_greater_equal_expr := local_test false (new_dtyped_srt SRT_GREATEREQ_EXPR DTYPE_INT [(new_identifier_srt SRT_IDENT_EXPR DTYPE_INT [106]); (new_iliteral_srt DTYPE_INT (new_signed IInt 0))]) (Some [(fun t => sym_define_memory t [106] DTYPE_INT)]) None.
Example test_immcgen_greater_equal_expr_ok : test_immcgen_greater_equal_expr = Ok
  [new_inst_immc IMMC_INST_LOAD (Some (new_signed_reg_immcope IMMC_SUFFIX_LONG 0)) (Some (new_mem_immcope 4)) None;
   new_inst_immc IMMC_INST_SETGEQ (Some (new_signed_reg_immcope IMMC_SUFFIX_LONG 1)) (Some (new_signed_reg_immcope IMMC_SUFFIX_LONG 0)) (Some (new_signed_int_immcope IMMC_SUFFIX_LONG IInt 0))].
Proof. vm_compute. reflexivity. Qed.
(** tests/immcgen/test_expression.c test_immcgen_lshift_expr *)
Definition test_immcgen_lshift_expr := local_test false (new_dtyped_srt SRT_LSHIFT_EXPR DTYPE_UNSIGNED_INT [(new_identifier_srt SRT_IDENT_EXPR DTYPE_UNSIGNED_INT [110]); (new_dtyped_srt SRT_CAST_EXPR DTYPE_UNSIGNED_INT [(new_iliteral_srt DTYPE_INT (new_signed IInt 2))])]) (Some [(fun t => sym_define_memory t [110] DTYPE_UNSIGNED_INT)]) None.
Example test_immcgen_lshift_expr_ok : test_immcgen_lshift_expr = Ok
  [new_inst_immc IMMC_INST_LOAD (Some (new_unsigned_reg_immcope IMMC_SUFFIX_LONG 0)) (Some (new_mem_immcope 4)) None;
   new_inst_immc IMMC_INST_SAL (Some (new_unsigned_reg_immcope IMMC_SUFFIX_LONG 1)) (Some (new_unsigned_reg_immcope IMMC_SUFFIX_LONG 0)) (Some (new_unsigned_int_immcope IMMC_SUFFIX_LONG IUInt 2))].
Proof. vm_compute. reflexivity. Qed.
(** tests/immcgen/test_expression.c test_immcgen_rshift_expr *)
Definition test_immcgen_rshift_expr := local_test false (new_dtyped_srt SRT_RSHIFT_EXPR DTYPE_LONG [(new_identifier_srt SRT_IDENT_EXPR DTYPE_LONG [109]); (new_iliteral_srt DTYPE_LONG (new_signed ILong 2))]) (Some [(fun t => sym_define_memory t [109] DTYPE_LONG)]) None.
Example test_immcgen_rshift_expr_ok : test_immcgen_rshift_expr = Ok
  [new_inst_immc IMMC_INST_LOAD (Some (new_signed_reg_immcope IMMC_SUFFIX_QUAD 0)) (Some (new_mem_immcope 8)) None;
   new_inst_immc IMMC_INST_SAR (Some (new_signed_reg_immcope IMMC_SUFFIX_QUAD 1)) (Some (new_signed_reg_immcope IMMC_SUFFIX_QUAD 0)) (Some (new_signed_int_immcope IMMC_SUFFIX_QUAD ILong 2))].
Proof. vm_compute. reflexivity. Qed.
(** tests/immcgen/test_expression.c test_immcgen_add_expr *)
Definition test_immcgen_add_expr := local_test false (new_dtyped_srt SRT_ADD_EXPR DTYPE_INT [(new_dtyped_srt SRT_CAST_EXPR DTYPE_INT [(new_identifier_srt SRT_IDENT_EXPR DTYPE_CHAR [110])]); (new_iliteral_srt DTYPE_INT (new_signed IInt 3))]) (Some [(fun t => sym_define_memory t [110] DTYPE_CHAR)]) None.
Example test_immcgen_add_expr_ok : test_immcgen_add_expr = Ok
  [new_inst_immc IMMC_INST_LOAD (Some (new_signed_reg_immcope IMMC_SUFFIX_BYTE 0)) (Some (new_mem_immcope 4)) None;
   new_inst_immc IMMC_INST_LOAD (Some (new_signed_reg_immcope IMMC_SUFFIX_LONG 1)) (Some (new_signed_reg_immcope IMMC_SUFFIX_BYTE 0)) None;
   new_inst_immc IMMC_INST_ADD (Some (new_signed_reg_immcope IMMC_SUFFIX_LONG 2)) (Some (new_signed_reg_immcope IMMC_SUFFIX_LONG 1)) (Some (new_signed_int_immcope IMMC_SUFFIX_LONG IInt 3))].
Proof. vm_compute. reflexivity. Qed.
(** tests/immcgen/test_expression.c test_immcgen_subtract_expr *)
Definition test_immcgen_subtract_expr := local_test false (new_dtyped_srt SRT_SUB_EXPR DTYPE_INT [(new_dtyped_srt SRT_ADD_EXPR DTYPE_INT [(new_iliteral_srt DTYPE_INT (new_signed IInt 3)); (new_iliteral_srt DTYPE_INT (new_signed IInt 4))]); (new_iliteral_srt DTYPE_INT (new_signed IInt 6))]) None None.
Example test_immcgen_subtract_expr_ok : test_immcgen_subtract_expr = Ok
  [new_inst_immc IMMC_INST_LOAD (Some (new_signed_reg_immcope IMMC_SUFFIX_LONG 0)) (Some (new_signed_int_immcope IMMC_SUFFIX_LONG IInt 3)) None;
   new_inst_immc IMMC_INST_ADD (Some (new_signed_reg_immcope IMMC_SUFFIX_LONG 1)) (Some (new_signed_reg_immcope IMMC_SUFFIX_LONG 0)) (Some (new_signed_int_immcope IMMC_SUFFIX_LONG IInt 4));
   new_inst_immc IMMC_INST_SUB (Some (new_signed_reg_immcope IMMC_SUFFIX_LONG 2)) (Some (new_signed_reg_immcope IMMC_SUFFIX_LONG 1)) (Some (new_signed_int_immcope IMMC_SUFFIX_LONG IInt 6))].
Proof. vm_compute. reflexivity. Qed.
(** tests/immcgen/test_expression.c test_immcgen_pointer_add_expr *)
Definition test_immcgen_pointer_add_expr := local_test false (new_dtyped_srt SRT_PADD_EXPR (DTYPE_POINTER DTYPE_CHAR) [(new_identifier_srt SRT_IDENT_EXPR (DTYPE_POINTER DTYPE_CHAR) [112; 116; 114]); (new_iliteral_srt DTYPE_INT (new_signed IInt 2))]) (Some [(fun t => sym_define_memory t [112; 116; 114] (DTYPE_POINTER DTYPE_CHAR))]) None.
Example test_immcgen_pointer_add_expr_ok : test_immcgen_pointer_add_expr = Ok
  [new_inst_immc IMMC_INST_LOAD (Some (new_signed_reg_immcope IMMC_SUFFIX_QUAD 0)) (Some (new_mem_immcope 8)) None;
   new_inst_immc IMMC_INST_LOAD (Some (new_signed_reg_immcope IMMC_SUFFIX_LONG 1)) (Some (new_signed_int_immcope IMMC_SUFFIX_LONG IInt 2)) None;
   new_inst_immc IMMC_INST_MUL (Some (new_signed_reg_immcope IMMC_SUFFIX_LONG 1)) (Some (new_signed_reg_immcope IMMC_SUFFIX_LONG 1)) (Some (new_signed_int_immcope IMMC_SUFFIX_LONG IInt 1));
   new_inst_immc IMMC_INST_ADD (Some (new_signed_reg_immcope IMMC_SUFFIX_QUAD 2)) (Some (new_signed_reg_immcope IMMC_SUFFIX_QUAD 0)) (Some (new_signed_reg_immcope IMMC_SUFFIX_LONG 1))].
Proof. vm_compute. reflexivity. Qed.
(** tests/immcgen/test_expression.c test_immcgen_pointer_subtract_expr *)
Definition test_immcgen_pointer_subtract_expr := local_test false (new_dtyped_srt SRT_PSUB_EXPR (DTYPE_POINTER DTYPE_INT) [(new_identifier_srt SRT_IDENT_EXPR (DTYPE_POINTER DTYPE_INT) [112; 116; 114]); (new_iliteral_srt DTYPE_INT (new_signed IInt 4))]) (Some [(fun t => sym_define_memory t [112; 116; 114] (DTYPE_POINTER DTYPE_INT))]) None.
Example test_immcgen_pointer_subtract_expr_ok : test_immcgen_pointer_subtract_expr = Ok
  [new_inst_immc IMMC_INST_LOAD (Some (new_signed_reg_immcope IMMC_SUFFIX_QUAD 0)) (Some (new_mem_immcope 8)) None;
   new_inst_immc IMMC_INST_LOAD (Some (new_signed_reg_immcope IMMC_SUFFIX_LONG 1)) (Some (new_signed_int_immcope IMMC_SUFFIX_LONG IInt 4)) None;
   new_inst_immc IMMC_INST_MUL (Some (new_signed_reg_immcope IMMC_SUFFIX_LONG 1)) (Some (new_signed_reg_immcope IMMC_SUFFIX_LONG 1)) (Some (new_signed_int_immcope IMMC_SUFFIX_LONG IInt 4));
   new_inst_immc IMMC_INST_SUB (Some (new_signed_reg_immcope IMMC_SUFFIX_QUAD 2)) (Some (new_signed_reg_immcope IMMC_SUFFIX_QUAD 0)) (Some (new_signed_reg_immcope IMMC_SUFFIX_LONG 1))].
Proof. vm_compute. reflexivity. Qed.
(** tests/immcgen/test_expression.c test_immcgen_pointer_difference_expr *)
Definition test_immcgen_pointer_difference_expr := local_test false (new_dtyped_srt SRT_PDIFF_EXPR DTYPE_INT [(new_identifier_srt SRT_IDENT_EXPR (DTYPE_POINTER DTYPE_CHAR) [112]); (new_identifier_srt SRT_IDENT_EXPR (DTYPE_POINTER DTYPE_CHAR) [113])]) (Some [(fun t => sym_define_memory t [112] (DTYPE_POINTER DTYPE_CHAR)); (fun t => sym_define_memory t [113] (DTYPE_POINTER DTYPE_CHAR))]) None.
Example test_immcgen_pointer_difference_expr_ok : test_immcgen_pointer_difference_expr = Ok
  [new_inst_immc IMMC_INST_LOAD (Some (new_signed_reg_immcope IMMC_SUFFIX_QUAD 0)) (Some (new_mem_immcope 8)) None;
   new_inst_immc IMMC_INST_LOAD (Some (new_signed_reg_immcope IMMC_SUFFIX_QUAD 1)) (Some (new_mem_immcope 16)) None;
   new_inst_immc IMMC_INST_SUB (Some (new_signed_reg_immcope IMMC_SUFFIX_LONG 2)) (Some (new_signed_reg_immcope IMMC_SUFFIX_QUAD 0)) (Some (new_signed_reg_immcope IMMC_SUFFIX_QUAD 1));
   new_inst_immc IMMC_INST_DIV (Some (new_signed_reg_immcope IMMC_SUFFIX_LONG 2)) (Some (new_signed_reg_immcope IMMC_SUFFIX_LONG 2)) (Some (new_signed_int_immcope IMMC_SUFFIX_LONG IInt 1))].
Proof. vm_compute. reflexivity. Qed.
(** tests/immcgen/test_expression.c test_immcgen_signed_multiply_expr *)
Definition test_immcgen_signed_multiply_expr := local_test false (new_dtyped_srt SRT_MUL_EXPR DTYPE_INT [(new_iliteral_srt DTYPE_INT (new_signed IInt 4)); (new_identifier_srt SRT_IDENT_EXPR DTYPE_INT [110])]) (Some [(fun t => sym_define_memory t [110] DTYPE_INT)]) None.
Example test_immcgen_signed_multiply_expr_ok : test_immcgen_signed_multiply_expr = Ok
  [new_inst_immc IMMC_INST_LOAD (Some (new_signed_reg_immcope IMMC_SUFFIX_LONG 0)) (Some (new_signed_int_immcope IMMC_SUFFIX_LONG IInt 4)) None;
   new_inst_immc IMMC_INST_LOAD (Some (new_signed_reg_immcope IMMC_SUFFIX_LONG 1)) (Some (new_mem_immcope 4)) None;
   new_inst_immc IMMC_INST_MUL (Some (new_signed_reg_immcope IMMC_SUFFIX_LONG 2)) (Some (new_signed_reg_immcope IMMC_SUFFIX_LONG 0)) (Some (new_signed_reg_immcope IMMC_SUFFIX_LONG 1))].
Proof. vm_compute. reflexivity. Qed.
(** tests/immcgen/test_expression.c test_immcgen_unsigned_multiply_expr *)
Definition test_immcgen_unsigned_multiply_expr := local_test false (new_dtyped_srt SRT_ADD_EXPR DTYPE_UNSIGNED_INT [(new_dtyped_srt SRT_MUL_EXPR DTYPE_UNSIGNED_INT [(new_iliteral_srt DTYPE_UNSIGNED_INT (new_unsigned IUInt 3)); (new_iliteral_srt DTYPE_UNSIGNED_INT (new_unsigned IUInt 5))]); (new_iliteral_srt DTYPE_UNSIGNED_INT (new_unsigned IUInt 2))]) None None.
Example test_immcgen_unsigned_multiply_expr_ok : test_immcgen_unsigned_multiply_expr = Ok
  [new_inst_immc IMMC_INST_LOAD (Some (new_unsigned_reg_immcope IMMC_SUFFIX_LONG 0)) (Some (new_unsigned_int_immcope IMMC_SUFFIX_LONG IUInt 3)) None;
   new_inst_immc IMMC_INST_MUL (Some (new_unsigned_reg_immcope IMMC_SUFFIX_LONG 1)) (Some (new_unsigned_reg_immcope IMMC_SUFFIX_LONG 0)) (Some (new_unsigned_int_immcope IMMC_SUFFIX_LONG IUInt 5));
   new_inst_immc IMMC_INST_ADD (Some (new_unsigned_reg_immcope IMMC_SUFFIX_LONG 2)) (Some (new_unsigned_reg_immcope IMMC_SUFFIX_LONG 1)) (Some (new_unsigned_int_immcope IMMC_SUFFIX_LONG IUInt 2))].
Proof. vm_compute. reflexivity. Qed.
(** tests/immcgen/test_expression.c test_immcgen_signed_division_expr *)
Definition test_immcgen_signed_division_expr := local_test false (new_dtyped_srt SRT_DIV_EXPR DTYPE_INT [(new_dtyped_srt SRT_CAST_EXPR DTYPE_INT [(new_identifier_srt SRT_IDENT_EXPR DTYPE_CHAR [97; 109; 111; 117; 110; 116])]); (new_iliteral_srt DTYPE_INT (new_signed IInt 2))]) (Some [(fun t => sym_define_memory t [97; 109; 111; 117; 110; 116] DTYPE_CHAR)]) None.
Example test_immcgen_signed_division_expr_ok : test_immcgen_signed_division_expr = Ok
  [new_inst_immc IMMC_INST_LOAD (Some (new_signed_reg_immcope IMMC_SUFFIX_BYTE 0)) (Some (new_mem_immcope 4)) None;
   new_inst_immc IMMC_INST_LOAD (Some (new_signed_reg_immcope IMMC_SUFFIX_LONG 1)) (Some (new_signed_reg_immcope IMMC_SUFFIX_BYTE 0)) None;
   new_inst_immc IMMC_INST_DIV (Some (new_signed_reg_immcope IMMC_SUFFIX_LONG 2)) (Some (new_signed_reg_immcope IMMC_SUFFIX_LONG 1)) (Some (new_signed_int_immcope IMMC_SUFFIX_LONG IInt 2))].
Proof. vm_compute. reflexivity. Qed.
(** tests/immcgen/test_expression.c test_immcgen_unsigned_division_expr *)
Definition test_immcgen_unsigned_division_expr := local_test false (new_dtyped_srt SRT_SUB_EXPR DTYPE_UNSIGNED_INT [(new_iliteral_srt DTYPE_UNSIGNED_INT (new_unsigned IUInt 34)); (new_dtyped_srt SRT_DIV_EXPR DTYPE_UNSIGNED_INT [(new_iliteral_srt DTYPE_UNSIGNED_INT (new_unsigned IUInt 18)); (new_iliteral_srt DTYPE_UNSIGNED_INT (new_unsigned IUInt 4))])]) None None.
Example test_immcgen_unsigned_division_expr_ok : test_immcgen_unsigned_division_expr = Ok
  [new_inst_immc IMMC_INST_LOAD (Some (new_unsigned_reg_immcope IMMC_SUFFIX_LONG 0)) (Some (new_unsigned_int_immcope IMMC_SUFFIX_LONG IUInt 34)) None;
   new_inst_immc IMMC_INST_LOAD (Some (new_unsigned_reg_immcope IMMC_SUFFIX_LONG 1)) (Some (new_unsigned_int_immcope IMMC_SUFFIX_LONG IUInt 18)) None;
   new_inst_immc IMMC_INST_DIV (Some (new_unsigned_reg_immcope IMMC_SUFFIX_LONG 2)) (Some (new_unsigned_reg_immcope IMMC_SUFFIX_LONG 1)) (Some (new_unsigned_int_immcope IMMC_SUFFIX_LONG IUInt 4));
   new_inst_immc IMMC_INST_SUB (Some (new_unsigned_reg_immcope IMMC_SUFFIX_LONG 3)) (Some (new_unsigned_reg_immcope IMMC_SUFFIX_LONG 0)) (Some (new_unsigned_reg_immcope IMMC_SUFFIX_LONG 2))].
Proof. vm_compute. reflexivity. Qed.
(** tests/immcgen/test_expression.c test_immcgen_signed_modulo_expr *)
Definition test_immcgen_signed_modulo_expr := local_test false (new_dtyped_srt SRT_MOD_EXPR DTYPE_INT [(new_dtyped_srt SRT_MUL_EXPR DTYPE_INT [(new_dtyped_srt SRT_CAST_EXPR DTYPE_INT [(new_identifier_srt SRT_IDENT_EXPR DTYPE_CHAR [118; 97; 108; 117; 101])]); (new_iliteral_srt DTYPE_INT (new_signed IInt 9))]); (new_iliteral_srt DTYPE_INT (new_signed IInt 5))]) (Some [(fun t => sym_define_memory t [118; 97; 108; 117; 101] DTYPE_CHAR)]) None.
Example test_immcgen_signed_modulo_expr_ok : test_immcgen_signed_modulo_expr = Ok
  [new_inst_immc IMMC_INST_LOAD (Some (new_signed_reg_immcope IMMC_SUFFIX_BYTE 0)) (Some (new_mem_immcope 4)) None;
   new_inst_immc IMMC_INST_LOAD (Some (new_signed_reg_immcope IMMC_SUFFIX_LONG 1)) (Some (new_signed_reg_immcope IMMC_SUFFIX_BYTE 0)) None;
   new_inst_immc IMMC_INST_MUL (Some (new_signed_reg_immcope IMMC_SUFFIX_LONG 2)) (Some (new_signed_reg_immcope IMMC_SUFFIX_LONG 1)) (Some (new_signed_int_immcope IMMC_SUFFIX_LONG IInt 9));
   new_inst_immc IMMC_INST_MOD (Some (new_signed_reg_immcope IMMC_SUFFIX_LONG 3)) (Some (new_signed_reg_immcope IMMC_SUFFIX_LONG 2)) (Some (new_signed_int_immcope IMMC_SUFFIX_LONG IInt 5))].
Proof. vm_compute. reflexivity. Qed.
(** tests/immcgen/test_expression.c test_immcgen_unsigned_modulo_expr *)
Definition test_immcgen_unsigned_modulo_expr := local_test false (new_dtyped_srt SRT_MOD_EXPR DTYPE_UNSIGNED_LONG [(new_dtyped_srt SRT_MUL_EXPR DTYPE_UNSIGNED_LONG [(new_dtyped_srt SRT_CAST_EXPR DTYPE_UNSIGNED_LONG [(new_identifier_srt SRT_IDENT_EXPR DTYPE_CHAR [118; 97; 108; 117; 101])]); (new_iliteral_srt DTYPE_UNSIGNED_LONG (new_unsigned IULong 10))]); (new_iliteral_srt DTYPE_UNSIGNED_LONG (new_unsigned IULong 4))]) (Some [(fun t => sym_define_memory t [118; 97; 108; 117; 101] DTYPE_CHAR)]) None.
Example test_immcgen_unsigned_modulo_expr_ok : test_immcgen_unsigned_modulo_expr = Ok
  [new_inst_immc IMMC_INST_LOAD (Some (new_signed_reg_immcope IMMC_SUFFIX_BYTE 0)) (Some (new_mem_immcope 4)) None;
   new_inst_immc IMMC_INST_LOAD (Some (new_unsigned_reg_immcope IMMC_SUFFIX_QUAD 1)) (Some (new_signed_reg_immcope IMMC_SUFFIX_BYTE 0)) None;
   new_inst_immc IMMC_INST_MUL (Some (new_unsigned_reg_immcope IMMC_SUFFIX_QUAD 2)) (Some (new_unsigned_reg_immcope IMMC_SUFFIX_QUAD 1)) (Some (new_unsigned_int_immcope IMMC_SUFFIX_QUAD IULong 10));
   new_inst_immc IMMC_INST_MOD (Some (new_unsigned_reg_immcope IMMC_SUFFIX_QUAD 3)) (Some (new_unsigned_reg_immcope IMMC_SUFFIX_QUAD 2)) (Some (new_unsigned_int_immcope IMMC_SUFFIX_QUAD IULong 4))].
Proof. vm_compute. reflexivity. Qed.
(** tests/immcgen/test_expression.c test_immcgen_preinc_expr_signed *)
Definition test_immcgen_preinc_expr_signed := local_test false (new_dtyped_srt SRT_PREINC_EXPR DTYPE_INT [(new_dtyped_srt SRT_ADDR_EXPR (DTYPE_POINTER DTYPE_INT) [(new_dtyped_srt SRT_INDIR_EXPR DTYPE_INT [(new_dtyped_srt SRT_PADD_EXPR (DTYPE_POINTER DTYPE_INT) [(new_dtyped_srt SRT_ADDR_EXPR (DTYPE_POINTER DTYPE_INT) [(new_identifier_srt SRT_IDENT_EXPR (DTYPE_ARRAY DTYPE_INT 5) [97])]); (new_identifier_srt SRT_IDENT_EXPR DTYPE_INT [105])])])])]) (Some [(fun t => sym_define_memory t [97] (DTYPE_ARRAY DTYPE_INT 5)); (fun t => sym_define_memory t [105] DTYPE_INT)]) None.
Example test_immcgen_preinc_expr_signed_ok : test_immcgen_preinc_expr_signed = Ok
  [new_inst_immc IMMC_INST_ADDR (Some (new_signed_reg_immcope IMMC_SUFFIX_QUAD 0)) (Some (new_mem_immcope 20)) None;
   new_inst_immc IMMC_INST_LOAD (Some (new_signed_reg_immcope IMMC_SUFFIX_LONG 1)) (Some (new_mem_immcope 24)) None;
   new_inst_immc IMMC_INST_MUL (Some (new_signed_reg_immcope IMMC_SUFFIX_LONG 1)) (Some (new_signed_reg_immcope IMMC_SUFFIX_LONG 1)) (Some (new_signed_int_immcope IMMC_SUFFIX_LONG IInt 4));
   new_inst_immc IMMC_INST_ADD (Some (new_signed_reg_immcope IMMC_SUFFIX_QUAD 2)) (Some (new_signed_reg_immcope IMMC_SUFFIX_QUAD 0)) (Some (new_signed_reg_immcope IMMC_SUFFIX_LONG 1));
   new_inst_immc IMMC_INST_LOAD (Some (new_signed_reg_immcope IMMC_SUFFIX_LONG 3)) (Some (new_ptr_immcope 2)) None;
   new_inst_immc IMMC_INST_ADD (Some (new_signed_reg_immcope IMMC_SUFFIX_LONG 3)) (Some (new_signed_reg_immcope IMMC_SUFFIX_LONG 3)) (Some (new_signed_int_immcope IMMC_SUFFIX_LONG IInt 1));
   new_inst_immc IMMC_INST_STORE (Some (new_ptr_immcope 2)) (Some (new_signed_reg_immcope IMMC_SUFFIX_LONG 3)) None].
Proof. vm_compute. reflexivity. Qed.
(** tests/immcgen/test_expression.c test_immcgen_preinc_expr_unsigned *)
Definition test_immcgen_preinc_expr_unsigned := local_test false (new_dtyped_srt SRT_PREINC_EXPR DTYPE_UNSIGNED_INT [(new_dtyped_srt SRT_ADDR_EXPR (DTYPE_POINTER DTYPE_UNSIGNED_INT) [(new_dtyped_srt SRT_INDIR_EXPR DTYPE_UNSIGNED_INT [(new_dtyped_srt SRT_PADD_EXPR (DTYPE_POINTER DTYPE_UNSIGNED_INT) [(new_dtyped_srt SRT_ADDR_EXPR (DTYPE_POINTER DTYPE_UNSIGNED_INT) [(new_identifier_srt SRT_IDENT_EXPR (DTYPE_ARRAY DTYPE_UNSIGNED_INT 5) [97])]); (new_identifier_srt SRT_IDENT_EXPR DTYPE_INT [105])])])])]) (Some [(fun t => sym_define_memory t [97] (DTYPE_ARRAY DTYPE_UNSIGNED_INT 5)); (fun t => sym_define_memory t [105] DTYPE_INT)]) None.
Example test_immcgen_preinc_expr_unsigned_ok : test_immcgen_preinc_expr_unsigned = Ok
  [new_inst_immc IMMC_INST_ADDR (Some (new_signed_reg_immcope IMMC_SUFFIX_QUAD 0)) (Some (new_mem_immcope 20)) None;
   new_inst_immc IMMC_INST_LOAD (Some (new_signed_reg_immcope IMMC_SUFFIX_LONG 1)) (Some (new_mem_immcope 24)) None;
   new_inst_immc IMMC_INST_MUL (Some (new_signed_reg_immcope IMMC_SUFFIX_LONG 1)) (Some (new_signed_reg_immcope IMMC_SUFFIX_LONG 1)) (Some (new_signed_int_immcope IMMC_SUFFIX_LONG IInt 4));
   new_inst_immc IMMC_INST_ADD (Some (new_signed_reg_immcope IMMC_SUFFIX_QUAD 2)) (Some (new_signed_reg_immcope IMMC_SUFFIX_QUAD 0)) (Some (new_signed_reg_immcope IMMC_SUFFIX_LONG 1));
   new_inst_immc IMMC_INST_LOAD (Some (new_unsigned_reg_immcope IMMC_SUFFIX_LONG 3)) (Some (new_ptr_immcope 2)) None;
   new_inst_immc IMMC_INST_ADD (Some (new_unsigned_reg_immcope IMMC_SUFFIX_LONG 3)) (Some (new_unsigned_reg_immcope IMMC_SUFFIX_LONG 3)) (Some (new_unsigned_int_immcope IMMC_SUFFIX_LONG IUInt 1));
   new_inst_immc IMMC_INST_STORE (Some (new_ptr_immcope 2)) (Some (new_unsigned_reg_immcope IMMC_SUFFIX_LONG 3)) None].
Proof. vm_compute. reflexivity. Qed.
(** tests/immcgen/test_expression.c test_immcgen_preinc_expr_completed_pointer *)
Definition test_immcgen_preinc_expr_completed_pointer := local_test false (new_dtyped_srt SRT_PREINC_EXPR (DTYPE_POINTER DTYPE_CHAR) [(new_dtyped_srt SRT_ADDR_EXPR (DTYPE_POINTER (DTYPE_POINTER DTYPE_CHAR)) [(new_identifier_srt SRT_IDENT_EXPR (DTYPE_POINTER DTYPE_CHAR) [112])])]) (Some [(fun t => sym_define_memory t [112] (DTYPE_POINTER DTYPE_CHAR))]) None.
Example test_immcgen_preinc_expr_completed_pointer_ok : test_immcgen_preinc_expr_completed_pointer = Ok
  [new_inst_immc IMMC_INST_LOAD (Some (new_signed_reg_immcope IMMC_SUFFIX_QUAD 0)) (Some (new_mem_immcope 8)) None;
   new_inst_immc IMMC_INST_ADD (Some (new_signed_reg_immcope IMMC_SUFFIX_QUAD 0)) (Some (new_signed_reg_immcope IMMC_SUFFIX_QUAD 0)) (Some (new_signed_int_immcope IMMC_SUFFIX_QUAD IInt 1));
   new_inst_immc IMMC_INST_STORE (Some (new_mem_immcope 8)) (Some (new_signed_reg_immcope IMMC_SUFFIX_QUAD 0)) None].
Proof. vm_compute. reflexivity. Qed.
(** tests/immcgen/test_expression.c test_immcgen_preinc_expr_void_pointer *)
Definition test_immcgen_preinc_expr_void_pointer := local_test false (new_dtyped_srt SRT_PREINC_EXPR (DTYPE_POINTER DTYPE_VOID) [(new_dtyped_srt SRT_ADDR_EXPR (DTYPE_POINTER (DTYPE_POINTER DTYPE_VOID)) [(new_identifier_srt SRT_IDENT_EXPR (DTYPE_POINTER DTYPE_VOID) [118])])]) (Some [(fun t => sym_define_memory t [118] (DTYPE_POINTER DTYPE_VOID))]) None.
Example test_immcgen_preinc_expr_void_pointer_ok : test_immcgen_preinc_expr_void_pointer = Ok
  [new_inst_immc IMMC_INST_LOAD (Some (new_signed_reg_immcope IMMC_SUFFIX_QUAD 0)) (Some (new_mem_immcope 8)) None;
   new_inst_immc IMMC_INST_ADD (Some (new_signed_reg_immcope IMMC_SUFFIX_QUAD 0)) (Some (new_signed_reg_immcope IMMC_SUFFIX_QUAD 0)) (Some (new_signed_int_immcope IMMC_SUFFIX_QUAD IInt 1));
   new_inst_immc IMMC_INST_STORE (Some (new_mem_immcope 8)) (Some (new_signed_reg_immcope IMMC_SUFFIX_QUAD 0)) None].
Proof. vm_compute. reflexivity. Qed.
(** tests/immcgen/test_expression.c test_immcgen_predec_expr_signed *)
Definition test_immcgen_predec_expr_signed := local_test false (new_dtyped_srt SRT_PREDEC_EXPR DTYPE_INT [(new_dtyped_srt SRT_ADDR_EXPR (DTYPE_POINTER DTYPE_INT) [(new_identifier_srt SRT_IDENT_EXPR DTYPE_INT [106])])]) (Some [(fun t => sym_define_memory t [106] DTYPE_INT)]) None.
Example test_immcgen_predec_expr_signed_ok : test_immcgen_predec_expr_signed = Ok
  [new_inst_immc IMMC_INST_LOAD (Some (new_signed_reg_immcope IMMC_SUFFIX_LONG 0)) (Some (new_mem_immcope 4)) None;
   new_inst_immc IMMC_INST_SUB (Some (new_signed_reg_immcope IMMC_SUFFIX_LONG 0)) (Some (new_signed_reg_immcope IMMC_SUFFIX_LONG 0)) (Some (new_signed_int_immcope IMMC_SUFFIX_LONG IInt 1));
   new_inst_immc IMMC_INST_STORE (Some (new_mem_immcope 4)) (Some (new_signed_reg_immcope IMMC_SUFFIX_LONG 0)) None].
Proof. vm_compute. reflexivity. Qed.
(** tests/immcgen/test_expression.c test_immcgen_predec_expr_unsigned *)
Definition test_immcgen_predec_expr_unsigned := local_test false (new_dtyped_srt SRT_PREDEC_EXPR DTYPE_UNSIGNED_INT [(new_dtyped_srt SRT_ADDR_EXPR (DTYPE_POINTER DTYPE_UNSIGNED_INT) [(new_identifier_srt SRT_IDENT_EXPR DTYPE_UNSIGNED_INT [106])])]) (Some [(fun t => sym_define_memory t [106] DTYPE_UNSIGNED_INT)]) None.
Example test_immcgen_predec_expr_unsigned_ok : test_immcgen_predec_expr_unsigned = Ok
  [new_inst_immc IMMC_INST_LOAD (Some (new_unsigned_reg_immcope IMMC_SUFFIX_LONG 0)) (Some (new_mem_immcope 4)) None;
   new_inst_immc IMMC_INST_SUB (Some (new_unsigned_reg_immcope IMMC_SUFFIX_LONG 0)) (Some (new_unsigned_reg_immcope IMMC_SUFFIX_LONG 0)) (Some (new_unsigned_int_immcope IMMC_SUFFIX_LONG IUInt 1));
   new_inst_immc IMMC_INST_STORE (Some (new_mem_immcope 4)) (Some (new_unsigned_reg_immcope IMMC_SUFFIX_LONG 0)) None].
Proof. vm_compute. reflexivity. Qed.
(** tests/immcgen/test_expression.c test_immcgen_predec_expr_completed_pointer *)
Definition test_immcgen_predec_expr_completed_pointer := local_test false (new_dtyped_srt SRT_PREDEC_EXPR (DTYPE_POINTER DTYPE_LONG) [(new_dtyped_srt SRT_ADDR_EXPR (DTYPE_POINTER (DTYPE_POINTER DTYPE_LONG)) [(new_identifier_srt SRT_IDENT_EXPR (DTYPE_POINTER DTYPE_LONG) [112])])]) (Some [(fun t => sym_define_memory t [112] (DTYPE_POINTER DTYPE_LONG))]) None.
Example test_immcgen_predec_expr_completed_pointer_ok : test_immcgen_predec_expr_completed_pointer = Ok
  [new_inst_immc IMMC_INST_LOAD (Some (new_signed_reg_immcope IMMC_SUFFIX_QUAD 0)) (Some (new_mem_immcope 8)) None;
   new_inst_immc IMMC_INST_SUB (Some (new_signed_reg_immcope IMMC_SUFFIX_QUAD 0)) (Some (new_signed_reg_immcope IMMC_SUFFIX_QUAD 0)) (Some (new_signed_int_immcope IMMC_SUFFIX_QUAD IInt 8));
   new_inst_immc IMMC_INST_STORE (Some (new_mem_immcope 8)) (Some (new_signed_reg_immcope IMMC_SUFFIX_QUAD 0)) None].
Proof. vm_compute. reflexivity. Qed.
(** tests/immcgen/test_expression.c test_immcgen_predec_expr_void_pointer *)
Definition test_immcgen_predec_expr_void_pointer := local_test false (new_dtyped_srt SRT_PREDEC_EXPR (DTYPE_POINTER DTYPE_VOID) [(new_dtyped_srt SRT_ADDR_EXPR (DTYPE_POINTER (DTYPE_POINTER DTYPE_VOID)) [(new_identifier_srt SRT_IDENT_EXPR (DTYPE_POINTER DTYPE_VOID) [118])])]) (Some [(fun t => sym_define_memory t [118] (DTYPE_POINTER DTYPE_VOID))]) None.
Example test_immcgen_predec_expr_void_pointer_ok : test_immcgen_predec_expr_void_pointer = Ok
  [new_inst_immc IMMC_INST_LOAD (Some (new_signed_reg_immcope IMMC_SUFFIX_QUAD 0)) (Some (new_mem_immcope 8)) None;
   new_inst_immc IMMC_INST_SUB (Some (new_signed_reg_immcope IMMC_SUFFIX_QUAD 0)) (Some (new_signed_reg_immcope IMMC_SUFFIX_QUAD 0)) (Some (new_signed_int_immcope IMMC_SUFFIX_QUAD IInt 1));
   new_inst_immc IMMC_INST_STORE (Some (new_mem_immcope 8)) (Some (new_signed_reg_immcope IMMC_SUFFIX_QUAD 0)) None].
Proof. vm_compute. reflexivity. Qed.
(** tests/immcgen/test_expression.c test_immcgen_address_expr_local *)
Definition test_immcgen_address_expr_local := local_test false (new_dtyped_srt SRT_ADDR_EXPR (DTYPE_POINTER DTYPE_INT) [(new_identifier_srt SRT_IDENT_EXPR DTYPE_INT [120])]) (Some [(fun t => sym_define_memory t [120] DTYPE_INT)]) None.
Example test_immcgen_address_expr_local_ok : test_immcgen_address_expr_local = Ok
  [new_inst_immc IMMC_INST_ADDR (Some (new_signed_reg_immcope IMMC_SUFFIX_QUAD 0)) (Some (new_mem_immcope 4)) None].
Proof. vm_compute. reflexivity. Qed.
(** tests/immcgen/test_expression.c test_immcgen_address_expr_global *)
Definition test_immcgen_address_expr_global := global_test (new_dtyped_srt SRT_ADDR_EXPR (DTYPE_POINTER DTYPE_INT) [(new_identifier_srt SRT_IDENT_EXPR DTYPE_INT [120])]) (Some [(fun t => sym_define_label t [120] DTYPE_INT)]) None.
Example test_immcgen_address_expr_global_ok : test_immcgen_address_expr_global = Ok
  [new_inst_immc IMMC_INST_ADDR (Some (new_signed_reg_immcope IMMC_SUFFIX_QUAD 0)) (Some (new_label_immcope [120])) None].
Proof. vm_compute. reflexivity. Qed.
(** tests/immcgen/test_expression.c test_immcgen_address_expr_indir *)
Definition test_immcgen_address_expr_indir := local_test false (new_dtyped_srt SRT_ADDR_EXPR (DTYPE_POINTER DTYPE_INT) [(new_dtyped_srt SRT_INDIR_EXPR DTYPE_INT [(new_dtyped_srt SRT_PADD_EXPR (DTYPE_POINTER DTYPE_INT) [(new_dtyped_srt SRT_ADDR_EXPR (DTYPE_POINTER DTYPE_INT) [(new_identifier_srt SRT_IDENT_EXPR (DTYPE_ARRAY DTYPE_INT 5) [97])]); (new_iliteral_srt DTYPE_INT (new_signed IInt 1))])])]) (Some [(fun t => sym_define_memory t [97] (DTYPE_ARRAY DTYPE_INT 5))]) None.
Example test_immcgen_address_expr_indir_ok : test_immcgen_address_expr_indir = Ok
  [new_inst_immc IMMC_INST_ADDR (Some (new_signed_reg_immcope IMMC_SUFFIX_QUAD 0)) (Some (new_mem_immcope 20)) None;
   new_inst_immc IMMC_INST_LOAD (Some (new_signed_reg_immcope IMMC_SUFFIX_LONG 1)) (Some (new_signed_int_immcope IMMC_SUFFIX_LONG IInt 1)) None;
   new_inst_immc IMMC_INST_MUL (Some (new_signed_reg_immcope IMMC_SUFFIX_LONG 1)) (Some (new_signed_reg_immcope IMMC_SUFFIX_LONG 1)) (Some (new_signed_int_immcope IMMC_SUFFIX_LONG IInt 4));
   new_inst_immc IMMC_INST_ADD (Some (new_signed_reg_immcope IMMC_SUFFIX_QUAD 2)) (Some (new_signed_reg_immcope IMMC_SUFFIX_QUAD 0)) (Some (new_signed_reg_immcope IMMC_SUFFIX_LONG 1))].
Proof. vm_compute. reflexivity. Qed.
(** tests/immcgen/test_expression.c test_immcgen_address_expr_tomember *)
Definition test_immcgen_address_expr_tomember := local_test false (new_dtyped_srt SRT_ADDR_EXPR (DTYPE_POINTER DTYPE_INT) [(new_dtyped_srt SRT_TOMEMBER_EXPR DTYPE_CHAR [(new_dtyped_srt SRT_ADDR_EXPR (DTYPE_POINTER (DTYPE_NSTRUCT [83; 116; 114; 117; 99; 116] 8 4)) [(new_identifier_srt SRT_IDENT_EXPR (DTYPE_NSTRUCT [83; 116; 114; 117; 99; 116] 8 4) [115; 116; 114; 117; 99; 116; 117; 114; 101])]); (new_identifier_srt SRT_IDENT_EXPR DTYPE_CHAR [99; 109; 101; 109; 98; 101; 114])])]) (Some [(fun t => sym_define_memory t [115; 116; 114; 117; 99; 116; 117; 114; 101] (DTYPE_NSTRUCT [83; 116; 114; 117; 99; 116] 8 4))]) (Some [(fun t => tag_define_struct t [83; 116; 114; 117; 99; 116] [([99; 109; 101; 109; 98; 101; 114], DTYPE_CHAR); ([105; 109; 101; 109; 98; 101; 114], DTYPE_INT)])]).
Example test_immcgen_address_expr_tomember_ok : test_immcgen_address_expr_tomember = Ok
  [new_inst_immc IMMC_INST_ADDR (Some (new_signed_reg_immcope IMMC_SUFFIX_QUAD 0)) (Some (new_mem_immcope 8)) None;
   new_inst_immc IMMC_INST_ADD (Some (new_signed_reg_immcope IMMC_SUFFIX_QUAD 1)) (Some (new_signed_reg_immcope IMMC_SUFFIX_QUAD 0)) (Some (new_signed_int_immcope IMMC_SUFFIX_QUAD IInt 0))].
Proof. vm_compute. reflexivity. Qed.
(** tests/immcgen/test_expression.c test_immcgen_indirection_expr *)
Definition test_immcgen_indirection_expr := local_test false (new_dtyped_srt SRT_INDIR_EXPR DTYPE_INT [(new_identifier_srt SRT_IDENT_EXPR (DTYPE_POINTER DTYPE_INT) [112; 116; 114])]) (Some [(fun t => sym_define_memory t [112; 116; 114] (DTYPE_POINTER DTYPE_INT))]) None.
Example test_immcgen_indirection_expr_ok : test_immcgen_indirection_expr = Ok
  [new_inst_immc IMMC_INST_LOAD (Some (new_signed_reg_immcope IMMC_SUFFIX_QUAD 0)) (Some (new_mem_immcope 8)) None;
   new_inst_immc IMMC_INST_LOAD (Some (new_signed_reg_immcope IMMC_SUFFIX_LONG 1)) (Some (new_ptr_immcope 0)) None].
Proof. vm_compute. reflexivity. Qed.
(** tests/immcgen/test_expression.c test_immcgen_positive_expr *)
Definition test_immcgen_positive_expr := local_test false (new_dtyped_srt SRT_POS_EXPR DTYPE_INT [(new_dtyped_srt SRT_CAST_EXPR DTYPE_INT [(new_identifier_srt SRT_IDENT_EXPR DTYPE_CHAR [120])])]) (Some [(fun t => sym_define_memory t [120] DTYPE_CHAR)]) None.
Example test_immcgen_positive_expr_ok : test_immcgen_positive_expr = Ok
  [new_inst_immc IMMC_INST_LOAD (Some (new_signed_reg_immcope IMMC_SUFFIX_BYTE 0)) (Some (new_mem_immcope 4)) None;
   new_inst_immc IMMC_INST_LOAD (Some (new_signed_reg_immcope IMMC_SUFFIX_LONG 1)) (Some (new_signed_reg_immcope IMMC_SUFFIX_BYTE 0)) None].
Proof. vm_compute. reflexivity. Qed.
(** tests/immcgen/test_expression.c test_immcgen_negative_expr *)
Definition test_immcgen_negative_expr := local_test false (new_dtyped_srt SRT_NEG_EXPR DTYPE_INT [(new_dtyped_srt SRT_CAST_EXPR DTYPE_INT [(new_identifier_srt SRT_IDENT_EXPR DTYPE_CHAR [120])])]) (Some [(fun t => sym_define_memory t [120] DTYPE_CHAR)]) None.
Example test_immcgen_negative_expr_ok : test_immcgen_negative_expr = Ok
  [new_inst_immc IMMC_INST_LOAD (Some (new_signed_reg_immcope IMMC_SUFFIX_BYTE 0)) (Some (new_mem_immcope 4)) None;
   new_inst_immc IMMC_INST_LOAD (Some (new_signed_reg_immcope IMMC_SUFFIX_LONG 1)) (Some (new_signed_reg_immcope IMMC_SUFFIX_BYTE 0)) None;
   new_inst_immc IMMC_INST_NEG (Some (new_signed_reg_immcope IMMC_SUFFIX_LONG 2)) (Some (new_signed_reg_immcope IMMC_SUFFIX_LONG 1)) None].
Proof. vm_compute. reflexivity. Qed.
(** tests/immcgen/test_expression.c test_immcgen_bitwise_not_expr *)
Definition test_immcgen_bitwise_not_expr := local_test false (new_dtyped_srt SRT_NOT_EXPR DTYPE_INT [(new_identifier_srt SRT_IDENT_EXPR DTYPE_INT [120])]) (Some [(fun t => sym_define_memory t [120] DTYPE_INT)]) None.
Example test_immcgen_bitwise_not_expr_ok : test_immcgen_bitwise_not_expr = Ok
  [new_inst_immc IMMC_INST_LOAD (Some (new_signed_reg_immcope IMMC_SUFFIX_LONG 0)) (Some (new_mem_immcope 4)) None;
   new_inst_immc IMMC_INST_NOT (Some (new_signed_reg_immcope IMMC_SUFFIX_LONG 1)) (Some (new_signed_reg_immcope IMMC_SUFFIX_LONG 0)) None].
Proof. vm_compute. reflexivity. Qed.
(** tests/immcgen/test_expression.c test_immcgen_logical_not_expr *)
Definition test_immcgen_logical_not_expr := local_test false (new_dtyped_srt SRT_LNOT_EXPR DTYPE_INT [(new_dtyped_srt SRT_LNOT_EXPR DTYPE_INT [(new_identifier_srt SRT_IDENT_EXPR DTYPE_CHAR [102; 108; 97; 103])])]) (Some [(fun t => sym_define_memory t [102; 108; 97; 103] DTYPE_CHAR)]) None.
Example test_immcgen_logical_not_expr_ok : test_immcgen_logical_not_expr = Ok
  [new_inst_immc IMMC_INST_LOAD (Some (new_signed_reg_immcope IMMC_SUFFIX_BYTE 0)) (Some (new_mem_immcope 4)) None;
   new_inst_immc IMMC_INST_SETEQ (Some (new_signed_reg_immcope IMMC_SUFFIX_LONG 1)) (Some (new_signed_reg_immcope IMMC_SUFFIX_BYTE 0)) (Some (new_signed_int_immcope IMMC_SUFFIX_BYTE IInt 0));
   new_inst_immc IMMC_INST_SETEQ (Some (new_signed_reg_immcope IMMC_SUFFIX_LONG 2)) (Some (new_signed_reg_immcope IMMC_SUFFIX_LONG 1)) (Some (new_signed_int_immcope IMMC_SUFFIX_LONG IInt 0))].
Proof. vm_compute. reflexivity. Qed.
(** tests/immcgen/test_expression.c test_immcgen_call_expr_returning_non_void *)
Definition test_immcgen_call_expr_returning_non_void := local_test false (new_dtyped_srt SRT_CALL_EXPR DTYPE_INT [(new_dtyped_srt SRT_ADDR_EXPR (DTYPE_POINTER (DTYPE_FUNCTION [(Some [120], DTYPE_INT); (Some [121], DTYPE_INT)] DTYPE_INT)) [(new_identifier_srt SRT_IDENT_EXPR (DTYPE_FUNCTION [(Some [120], DTYPE_INT); (Some [121], DTYPE_INT)] DTYPE_INT) [102; 117; 110; 99; 116; 105; 111; 110])]); (new_srt SRT_ARG_LIST [(new_dtyped_srt SRT_CAST_EXPR DTYPE_INT [(new_identifier_srt SRT_IDENT_EXPR DTYPE_CHAR [97])]); (new_iliteral_srt DTYPE_INT (new_signed IInt 3))])]) (Some [(fun t => sym_define_label t [102; 117; 110; 99; 116; 105; 111; 110] (DTYPE_FUNCTION [(Some [120], DTYPE_INT); (Some [121], DTYPE_INT)] DTYPE_INT)); (fun t => sym_define_memory t [97] DTYPE_CHAR)]) None.
Example test_immcgen_call_expr_returning_non_void_ok : test_immcgen_call_expr_returning_non_void = Ok
  [new_inst_immc IMMC_INST_PREP None (Some (new_signed_int_immcope IMMC_SUFFIX_NONE IInt 2)) None;
   new_inst_immc IMMC_INST_STARG (Some (new_signed_arg_immcope IMMC_SUFFIX_LONG 1)) (Some (new_signed_int_immcope IMMC_SUFFIX_LONG IInt 3)) None;
   new_inst_immc IMMC_INST_LOAD (Some (new_signed_reg_immcope IMMC_SUFFIX_BYTE 0)) (Some (new_mem_immcope 4)) None;
   new_inst_immc IMMC_INST_LOAD (Some (new_signed_reg_immcope IMMC_SUFFIX_LONG 1)) (Some (new_signed_reg_immcope IMMC_SUFFIX_BYTE 0)) None;
   new_inst_immc IMMC_INST_STARG (Some (new_signed_arg_immcope IMMC_SUFFIX_LONG 0)) (Some (new_signed_reg_immcope IMMC_SUFFIX_LONG 1)) None;
   new_inst_immc IMMC_INST_CALL (Some (new_signed_reg_immcope IMMC_SUFFIX_LONG 2)) (Some (new_label_immcope [102; 117; 110; 99; 116; 105; 111; 110])) (Some (new_signed_int_immcope IMMC_SUFFIX_NONE IInt 2));
   new_inst_immc IMMC_INST_CLEAN None (Some (new_signed_int_immcope IMMC_SUFFIX_NONE IInt 2)) None].
Proof. vm_compute. reflexivity. Qed.
(** tests/immcgen/test_expression.c test_immcgen_call_expr_returning_void *)
Definition test_immcgen_call_expr_returning_void := local_test false (new_dtyped_srt SRT_CALL_EXPR DTYPE_VOID [(new_dtyped_srt SRT_ADDR_EXPR (DTYPE_POINTER (DTYPE_FUNCTION [(Some [120], DTYPE_INT)] DTYPE_VOID)) [(new_identifier_srt SRT_IDENT_EXPR (DTYPE_FUNCTION [(Some [120], DTYPE_INT)] DTYPE_VOID) [102; 117; 110; 99; 116; 105; 111; 110])]); (new_srt SRT_ARG_LIST [(new_identifier_srt SRT_IDENT_EXPR DTYPE_INT [97])])]) (Some [(fun t => sym_define_label t [102; 117; 110; 99; 116; 105; 111; 110] (DTYPE_FUNCTION [(Some [120], DTYPE_INT)] DTYPE_VOID)); (fun t => sym_define_memory t [97] DTYPE_INT)]) None.
Example test_immcgen_call_expr_returning_void_ok : test_immcgen_call_expr_returning_void = Ok
  [new_inst_immc IMMC_INST_PREP None (Some (new_signed_int_immcope IMMC_SUFFIX_NONE IInt 1)) None;
   new_inst_immc IMMC_INST_LOAD (Some (new_signed_reg_immcope IMMC_SUFFIX_LONG 0)) (Some (new_mem_immcope 4)) None;
   new_inst_immc IMMC_INST_STARG (Some (new_signed_arg_immcope IMMC_SUFFIX_LONG 0)) (Some (new_signed_reg_immcope IMMC_SUFFIX_LONG 0)) None;
   new_inst_immc IMMC_INST_CALL None (Some (new_label_immcope [102; 117; 110; 99; 116; 105; 111; 110])) (Some (new_signed_int_immcope IMMC_SUFFIX_NONE IInt 1));
   new_inst_immc IMMC_INST_CLEAN None (Some (new_signed_int_immcope IMMC_SUFFIX_NONE IInt 1)) None].
Proof. vm_compute. reflexivity. Qed.
(** tests/immcgen/test_expression.c test_immcgen_tomember_expr *)
Definition test_immcgen_tomember_expr := local_test false (new_dtyped_srt SRT_TOMEMBER_EXPR DTYPE_INT [(new_dtyped_srt SRT_ADDR_EXPR (DTYPE_POINTER (DTYPE_NSTRUCT [83; 116; 114; 117; 99; 116] 8 4)) [(new_identifier_srt SRT_IDENT_EXPR (DTYPE_NSTRUCT [83; 116; 114; 117; 99; 116] 8 4) [115; 116; 114; 117; 99; 116; 117; 114; 101])]); (new_identifier_srt SRT_IDENT_EXPR DTYPE_INT [105; 109; 101; 109; 98; 101; 114])]) (Some [(fun t => sym_define_memory t [115; 116; 114; 117; 99; 116; 117; 114; 101] (DTYPE_NSTRUCT [83; 116; 114; 117; 99; 116] 8 4))]) (Some [(fun t => tag_define_struct t [83; 116; 114; 117; 99; 116] [([99; 109; 101; 109; 98; 101; 114], DTYPE_CHAR); ([105; 109; 101; 109; 98; 101; 114], DTYPE_INT)])]).
Example test_immcgen_tomember_expr_ok : test_immcgen_tomember_expr = Ok
  [new_inst_immc IMMC_INST_ADDR (Some (new_signed_reg_immcope IMMC_SUFFIX_QUAD 0)) (Some (new_mem_immcope 8)) None;
   new_inst_immc IMMC_INST_ADD (Some (new_signed_reg_immcope IMMC_SUFFIX_QUAD 1)) (Some (new_signed_reg_immcope IMMC_SUFFIX_QUAD 0)) (Some (new_signed_int_immcope IMMC_SUFFIX_QUAD IInt 4));
   new_inst_immc IMMC_INST_LOAD (Some (new_signed_reg_immcope IMMC_SUFFIX_LONG 2)) (Some (new_ptr_immcope 1)) None].
Proof. vm_compute. reflexivity. Qed.
(** tests/immcgen/test_expression.c test_immcgen_postinc_expr_signed *)
Definition test_immcgen_postinc_expr_signed := local_test false (new_dtyped_srt SRT_POSTINC_EXPR DTYPE_INT [(new_dtyped_srt SRT_ADDR_EXPR (DTYPE_POINTER DTYPE_INT) [(new_identifier_srt SRT_IDENT_EXPR DTYPE_INT [105])])]) (Some [(fun t => sym_define_memory t [105] DTYPE_INT)]) None.
Example test_immcgen_postinc_expr_signed_ok : test_immcgen_postinc_expr_signed = Ok
  [new_inst_immc IMMC_INST_LOAD (Some (new_signed_reg_immcope IMMC_SUFFIX_LONG 0)) (Some (new_mem_immcope 4)) None;
   new_inst_immc IMMC_INST_LOAD (Some (new_signed_reg_immcope IMMC_SUFFIX_LONG 1)) (Some (new_signed_reg_immcope IMMC_SUFFIX_LONG 0)) None;
   new_inst_immc IMMC_INST_ADD (Some (new_signed_reg_immcope IMMC_SUFFIX_LONG 0)) (Some (new_signed_reg_immcope IMMC_SUFFIX_LONG 0)) (Some (new_signed_int_immcope IMMC_SUFFIX_LONG IInt 1));
   new_inst_immc IMMC_INST_STORE (Some (new_mem_immcope 4)) (Some (new_signed_reg_immcope IMMC_SUFFIX_LONG 0)) None].
Proof. vm_compute. reflexivity. Qed.
(** tests/immcgen/test_expression.c test_immcgen_postinc_expr_unsigned *)
Definition test_immcgen_postinc_expr_unsigned := local_test false (new_dtyped_srt SRT_POSTINC_EXPR DTYPE_UNSIGNED_INT [(new_dtyped_srt SRT_ADDR_EXPR (DTYPE_POINTER DTYPE_UNSIGNED_INT) [(new_identifier_srt SRT_IDENT_EXPR DTYPE_UNSIGNED_INT [105])])]) (Some [(fun t => sym_define_memory t [105] DTYPE_UNSIGNED_INT)]) None.
Example test_immcgen_postinc_expr_unsigned_ok : test_immcgen_postinc_expr_unsigned = Ok
  [new_inst_immc IMMC_INST_LOAD (Some (new_unsigned_reg_immcope IMMC_SUFFIX_LONG 0)) (Some (new_mem_immcope 4)) None;
   new_inst_immc IMMC_INST_LOAD (Some (new_unsigned_reg_immcope IMMC_SUFFIX_LONG 1)) (Some (new_unsigned_reg_immcope IMMC_SUFFIX_LONG 0)) None;
   new_inst_immc IMMC_INST_ADD (Some (new_unsigned_reg_immcope IMMC_SUFFIX_LONG 0)) (Some (new_unsigned_reg_immcope IMMC_SUFFIX_LONG 0)) (Some (new_unsigned_int_immcope IMMC_SUFFIX_LONG IUInt 1));
   new_inst_immc IMMC_INST_STORE (Some (new_mem_immcope 4)) (Some (new_unsigned_reg_immcope IMMC_SUFFIX_LONG 0)) None].
Proof. vm_compute. reflexivity. Qed.
(** tests/immcgen/test_expression.c test_immcgen_postinc_expr_completed_pointer *)
Definition test_immcgen_postinc_expr_completed_pointer := local_test false (new_dtyped_srt SRT_POSTINC_EXPR (DTYPE_POINTER DTYPE_INT) [(new_dtyped_srt SRT_ADDR_EXPR (DTYPE_POINTER (DTYPE_POINTER DTYPE_INT)) [(new_identifier_srt SRT_IDENT_EXPR (DTYPE_POINTER DTYPE_INT) [112])])]) (Some [(fun t => sym_define_memory t [112] (DTYPE_POINTER DTYPE_INT))]) None.
Example test_immcgen_postinc_expr_completed_pointer_ok : test_immcgen_postinc_expr_completed_pointer = Ok
  [new_inst_immc IMMC_INST_LOAD (Some (new_signed_reg_immcope IMMC_SUFFIX_QUAD 0)) (Some (new_mem_immcope 8)) None;
   new_inst_immc IMMC_INST_LOAD (Some (new_signed_reg_immcope IMMC_SUFFIX_QUAD 1)) (Some (new_signed_reg_immcope IMMC_SUFFIX_QUAD 0)) None;
   new_inst_immc IMMC_INST_ADD (Some (new_signed_reg_immcope IMMC_SUFFIX_QUAD 0)) (Some (new_signed_reg_immcope IMMC_SUFFIX_QUAD 0)) (Some (new_signed_int_immcope IMMC_SUFFIX_QUAD IInt 4));
   new_inst_immc IMMC_INST_STORE (Some (new_mem_immcope 8)) (Some (new_signed_reg_immcope IMMC_SUFFIX_QUAD 0)) None].
Proof. vm_compute. reflexivity. Qed.
(** tests/immcgen/test_expression.c test_immcgen_postinc_expr_void_pointer *)
Definition test_immcgen_postinc_expr_void_pointer := local_test false (new_dtyped_srt SRT_POSTINC_EXPR (DTYPE_POINTER DTYPE_VOID) [(new_dtyped_srt SRT_ADDR_EXPR (DTYPE_POINTER (DTYPE_POINTER DTYPE_VOID)) [(new_identifier_srt SRT_IDENT_EXPR (DTYPE_POINTER DTYPE_VOID) [118])])]) (Some [(fun t => sym_define_memory t [118] (DTYPE_POINTER DTYPE_VOID))]) None.
Example test_immcgen_postinc_expr_void_pointer_ok : test_immcgen_postinc_expr_void_pointer = Ok
  [new_inst_immc IMMC_INST_LOAD (Some (new_signed_reg_immcope IMMC_SUFFIX_QUAD 0)) (Some (new_mem_immcope 8)) None;
   new_inst_immc IMMC_INST_LOAD (Some (new_signed_reg_immcope IMMC_SUFFIX_QUAD 1)) (Some (new_signed_reg_immcope IMMC_SUFFIX_QUAD 0)) None;
   new_inst_immc IMMC_INST_ADD (Some (new_signed_reg_immcope IMMC_SUFFIX_QUAD 0)) (Some (new_signed_reg_immcope IMMC_SUFFIX_QUAD 0)) (Some (new_signed_int_immcope IMMC_SUFFIX_QUAD IInt 1));
   new_inst_immc IMMC_INST_STORE (Some (new_mem_immcope 8)) (Some (new_signed_reg_immcope IMMC_SUFFIX_QUAD 0)) None].
Proof. vm_compute. reflexivity. Qed.
(** tests/immcgen/test_expression.c test_immcgen_postdec_expr_signed *)
Definition test_immcgen_postdec_expr_signed := local_test false (new_dtyped_srt SRT_POSTDEC_EXPR DTYPE_INT [(new_dtyped_srt SRT_ADDR_EXPR (DTYPE_POINTER DTYPE_INT) [(new_dtyped_srt SRT_INDIR_EXPR DTYPE_INT [(new_dtyped_srt SRT_PADD_EXPR (DTYPE_POINTER DTYPE_INT) [(new_dtyped_srt SRT_ADDR_EXPR (DTYPE_POINTER DTYPE_INT) [(new_identifier_srt SRT_IDENT_EXPR (DTYPE_ARRAY DTYPE_INT 5) [98])]); (new_identifier_srt SRT_IDENT_EXPR DTYPE_INT [106])])])])]) (Some [(fun t => sym_define_memory t [98] (DTYPE_ARRAY DTYPE_INT 5)); (fun t => sym_define_memory t [106] DTYPE_INT)]) None.
Example test_immcgen_postdec_expr_signed_ok : test_immcgen_postdec_expr_signed = Ok
  [new_inst_immc IMMC_INST_ADDR (Some (new_signed_reg_immcope IMMC_SUFFIX_QUAD 0)) (Some (new_mem_immcope 20)) None;
   new_inst_immc IMMC_INST_LOAD (Some (new_signed_reg_immcope IMMC_SUFFIX_LONG 1)) (Some (new_mem_immcope 24)) None;
   new_inst_immc IMMC_INST_MUL (Some (new_signed_reg_immcope IMMC_SUFFIX_LONG 1)) (Some (new_signed_reg_immcope IMMC_SUFFIX_LONG 1)) (Some (new_signed_int_immcope IMMC_SUFFIX_LONG IInt 4));
   new_inst_immc IMMC_INST_ADD (Some (new_signed_reg_immcope IMMC_SUFFIX_QUAD 2)) (Some (new_signed_reg_immcope IMMC_SUFFIX_QUAD 0)) (Some (new_signed_reg_immcope IMMC_SUFFIX_LONG 1));
   new_inst_immc IMMC_INST_LOAD (Some (new_signed_reg_immcope IMMC_SUFFIX_LONG 3)) (Some (new_ptr_immcope 2)) None;
   new_inst_immc IMMC_INST_LOAD (Some (new_signed_reg_immcope IMMC_SUFFIX_LONG 4)) (Some (new_signed_reg_immcope IMMC_SUFFIX_LONG 3)) None;
   new_inst_immc IMMC_INST_SUB (Some (new_signed_reg_immcope IMMC_SUFFIX_LONG 3)) (Some (new_signed_reg_immcope IMMC_SUFFIX_LONG 3)) (Some (new_signed_int_immcope IMMC_SUFFIX_LONG IInt 1));
   new_inst_immc IMMC_INST_STORE (Some (new_ptr_immcope 2)) (Some (new_signed_reg_immcope IMMC_SUFFIX_LONG 3)) None].
Proof. vm_compute. reflexivity. Qed.
(** tests/immcgen/test_expression.c test_immcgen_postdec_expr_unsigned *)
Definition test_immcgen_postdec_expr_unsigned := local_test false (new_dtyped_srt SRT_POSTDEC_EXPR DTYPE_UNSIGNED_INT [(new_dtyped_srt SRT_ADDR_EXPR (DTYPE_POINTER DTYPE_UNSIGNED_INT) [(new_dtyped_srt SRT_INDIR_EXPR DTYPE_UNSIGNED_INT [(new_dtyped_srt SRT_PADD_EXPR (DTYPE_POINTER DTYPE_UNSIGNED_INT) [(new_dtyped_srt SRT_ADDR_EXPR (DTYPE_POINTER DTYPE_UNSIGNED_INT) [(new_identifier_srt SRT_IDENT_EXPR (DTYPE_ARRAY DTYPE_UNSIGNED_INT 5) [98])]); (new_identifier_srt SRT_IDENT_EXPR DTYPE_INT [106])])])])]) (Some [(fun t => sym_define_memory t [98] (DTYPE_ARRAY DTYPE_UNSIGNED_INT 5)); (fun t => sym_define_memory t [106] DTYPE_INT)]) None.
Example test_immcgen_postdec_expr_unsigned_ok : test_immcgen_postdec_expr_unsigned = Ok
  [new_inst_immc IMMC_INST_ADDR (Some (new_signed_reg_immcope IMMC_SUFFIX_QUAD 0)) (Some (new_mem_immcope 20)) None;
   new_inst_immc IMMC_INST_LOAD (Some (new_signed_reg_immcope IMMC_SUFFIX_LONG 1)) (Some (new_mem_immcope 24)) None;
   new_inst_immc IMMC_INST_MUL (Some (new_signed_reg_immcope IMMC_SUFFIX_LONG 1)) (Some (new_signed_reg_immcope IMMC_SUFFIX_LONG 1)) (Some (new_signed_int_immcope IMMC_SUFFIX_LONG IInt 4));
   new_inst_immc IMMC_INST_ADD (Some (new_signed_reg_immcope IMMC_SUFFIX_QUAD 2)) (Some (new_signed_reg_immcope IMMC_SUFFIX_QUAD 0)) (Some (new_signed_reg_immcope IMMC_SUFFIX_LONG 1));
   new_inst_immc IMMC_INST_LOAD (Some (new_unsigned_reg_immcope IMMC_SUFFIX_LONG 3)) (Some (new_ptr_immcope 2)) None;
   new_inst_immc IMMC_INST_LOAD (Some (new_unsigned_reg_immcope IMMC_SUFFIX_LONG 4)) (Some (new_unsigned_reg_immcope IMMC_SUFFIX_LONG 3)) None;
   new_inst_immc IMMC_INST_SUB (Some (new_unsigned_reg_immcope IMMC_SUFFIX_LONG 3)) (Some (new_unsigned_reg_immcope IMMC_SUFFIX_LONG 3)) (Some (new_unsigned_int_immcope IMMC_SUFFIX_LONG IUInt 1));
   new_inst_immc IMMC_INST_STORE (Some (new_ptr_immcope 2)) (Some (new_unsigned_reg_immcope IMMC_SUFFIX_LONG 3)) None].
Proof. vm_compute. reflexivity. Qed.
(** tests/immcgen/test_expression.c test_immcgen_postdec_expr_completed_pointer *)
Definition test_immcgen_postdec_expr_completed_pointer := local_test false (new_dtyped_srt SRT_POSTDEC_EXPR (DTYPE_POINTER DTYPE_CHAR) [(new_dtyped_srt SRT_ADDR_EXPR (DTYPE_POINTER (DTYPE_POINTER DTYPE_CHAR)) [(new_identifier_srt SRT_IDENT_EXPR (DTYPE_POINTER DTYPE_CHAR) [112])])]) (Some [(fun t => sym_define_memory t [112] (DTYPE_POINTER DTYPE_CHAR))]) None.
Example test_immcgen_postdec_expr_completed_pointer_ok : test_immcgen_postdec_expr_completed_pointer = Ok
  [new_inst_immc IMMC_INST_LOAD (Some (new_signed_reg_immcope IMMC_SUFFIX_QUAD 0)) (Some (new_mem_immcope 8)) None;
   new_inst_immc IMMC_INST_LOAD (Some (new_signed_reg_immcope IMMC_SUFFIX_QUAD 1)) (Some (new_signed_reg_immcope IMMC_SUFFIX_QUAD 0)) None;
   new_inst_immc IMMC_INST_SUB (Some (new_signed_reg_immcope IMMC_SUFFIX_QUAD 0)) (Some (new_signed_reg_immcope IMMC_SUFFIX_QUAD 0)) (Some (new_signed_int_immcope IMMC_SUFFIX_QUAD IInt 1));
   new_inst_immc IMMC_INST_STORE (Some (new_mem_immcope 8)) (Some (new_signed_reg_immcope IMMC_SUFFIX_QUAD 0)) None].
Proof. vm_compute. reflexivity. Qed.
(** tests/immcgen/test_expression.c test_immcgen_postdec_expr_void_pointer *)
Definition test_immcgen_postdec_expr_void_pointer := local_test false (new_dtyped_srt SRT_POSTDEC_EXPR (DTYPE_POINTER DTYPE_VOID) [(new_dtyped_srt SRT_ADDR_EXPR (DTYPE_POINTER (DTYPE_POINTER DTYPE_VOID)) [(new_identifier_srt SRT_IDENT_EXPR (DTYPE_POINTER DTYPE_VOID) [118])])]) (Some [(fun t => sym_define_memory t [118] (DTYPE_POINTER DTYPE_VOID))]) None.
Example test_immcgen_postdec_expr_void_pointer_ok : test_immcgen_postdec_expr_void_pointer = Ok
  [new_inst_immc IMMC_INST_LOAD (Some (new_signed_reg_immcope IMMC_SUFFIX_QUAD 0)) (Some (new_mem_immcope 8)) None;
   new_inst_immc IMMC_INST_LOAD (Some (new_signed_reg_immcope IMMC_SUFFIX_QUAD 1)) (Some (new_signed_reg_immcope IMMC_SUFFIX_QUAD 0)) None;
   new_inst_immc IMMC_INST_SUB (Some (new_signed_reg_immcope IMMC_SUFFIX_QUAD 0)) (Some (new_signed_reg_immcope IMMC_SUFFIX_QUAD 0)) (Some (new_signed_int_immcope IMMC_SUFFIX_QUAD IInt 1));
   new_inst_immc IMMC_INST_STORE (Some (new_mem_immcope 8)) (Some (new_signed_reg_immcope IMMC_SUFFIX_QUAD 0)) None].
Proof. vm_compute. reflexivity. Qed.
(** tests/immcgen/test_expression.c test_immcgen_ident_expr_local *)
Definition test_immcgen_ident_expr_local := local_test false (new_identifier_srt SRT_IDENT_EXPR DTYPE_CHAR [108; 111; 99; 97; 108]) (Some [(fun t => sym_define_memory t [108; 111; 99; 97; 108] DTYPE_CHAR)]) None.
Example test_immcgen_ident_expr_local_ok : test_immcgen_ident_expr_local = Ok
  [new_inst_immc IMMC_INST_LOAD (Some (new_signed_reg_immcope IMMC_SUFFIX_BYTE 0)) (Some (new_mem_immcope 4)) None].
Proof. vm_compute. reflexivity. Qed.
(** tests/immcgen/test_expression.c test_immcgen_ident_expr_global *)
Definition test_immcgen_ident_expr_global := global_test (new_identifier_srt SRT_IDENT_EXPR DTYPE_INT [103; 108; 111; 98; 97; 108]) (Some [(fun t => sym_define_label t [103; 108; 111; 98; 97; 108] DTYPE_INT)]) None.
Example test_immcgen_ident_expr_global_ok : test_immcgen_ident_expr_global = Ok
  [new_inst_immc IMMC_INST_LOAD (Some (new_signed_reg_immcope IMMC_SUFFIX_LONG 0)) (Some (new_label_immcope [103; 108; 111; 98; 97; 108])) None].
Proof. vm_compute. reflexivity. Qed.
(** tests/immcgen/test_expression.c test_immcgen_string_expr *)
Definition test_immcgen_string_expr := local_test false (new_dtyped_srt SRT_ADDR_EXPR (DTYPE_POINTER DTYPE_CHAR) [(new_string_srt SRT_STR_EXPR (DTYPE_ARRAY DTYPE_CHAR 6) 0)]) None None.
Example test_immcgen_string_expr_ok : test_immcgen_string_expr = Ok
  [new_inst_immc IMMC_INST_ADDR (Some (new_signed_reg_immcope IMMC_SUFFIX_QUAD 0)) (Some (new_label_immcope [46; 83; 76; 48])) None].
Proof. vm_compute. reflexivity. Qed.
(** tests/immcgen/test_expression.c test_immcgen_iliteral_expr_char *)
Definition test_immcgen_iliteral_expr_char := local_test false (new_iliteral_srt DTYPE_INT (new_signed IInt 89)) None None.
Example test_immcgen_iliteral_expr_char_ok : test_immcgen_iliteral_expr_char = Ok
  [new_inst_immc IMMC_INST_LOAD (Some (new_signed_reg_immcope IMMC_SUFFIX_LONG 0)) (Some (new_signed_int_immcope IMMC_SUFFIX_LONG IInt 89)) None].
Proof. vm_compute. reflexivity. Qed.
(** tests/immcgen/test_expression.c test_immcgen_iliteral_expr_int *)
Definition test_immcgen_iliteral_expr_int := local_test false (new_iliteral_srt DTYPE_INT (new_signed IInt 3)) None None.
Example test_immcgen_iliteral_expr_int_ok : test_immcgen_iliteral_expr_int = Ok
  [new_inst_immc IMMC_INST_LOAD (Some (new_signed_reg_immcope IMMC_SUFFIX_LONG 0)) (Some (new_signed_int_immcope IMMC_SUFFIX_LONG IInt 3)) None].
Proof. vm_compute. reflexivity. Qed.
(** tests/immcgen/test_expression.c test_immcgen_iliteral_expr_unsigned_int *)
Definition test_immcgen_iliteral_expr_unsigned_int := local_test false (new_iliteral_srt DTYPE_INT (new_unsigned IUInt 5)) None None.
Example test_immcgen_iliteral_expr_unsigned_int_ok : test_immcgen_iliteral_expr_unsigned_int = Ok
  [new_inst_immc IMMC_INST_LOAD (Some (new_signed_reg_immcope IMMC_SUFFIX_LONG 0)) (Some (new_unsigned_int_immcope IMMC_SUFFIX_LONG IUInt 5)) None].
Proof. vm_compute. reflexivity. Qed.
(** tests/immcgen/test_expression.c test_immcgen_iliteral_expr_long *)
Definition test_immcgen_iliteral_expr_long := local_test false (new_iliteral_srt DTYPE_LONG (new_signed ILong 7)) None None.
Example test_immcgen_iliteral_expr_long_ok : test_immcgen_iliteral_expr_long = Ok
  [new_inst_immc IMMC_INST_LOAD (Some (new_signed_reg_immcope IMMC_SUFFIX_QUAD 0)) (Some (new_signed_int_immcope IMMC_SUFFIX_QUAD ILong 7)) None].
Proof. vm_compute. reflexivity. Qed.
(** tests/immcgen/test_expression.c test_immcgen_iliteral_expr_unsigned_long *)
Definition test_immcgen_iliteral_expr_unsigned_long := local_test false (new_iliteral_srt DTYPE_UNSIGNED_LONG (new_unsigned IULong 11)) None None.
Example test_immcgen_iliteral_expr_unsigned_long_ok : test_immcgen_iliteral_expr_unsigned_long = Ok
  [new_inst_immc IMMC_INST_LOAD (Some (new_unsigned_reg_immcope IMMC_SUFFIX_QUAD 0)) (Some (new_unsigned_int_immcope IMMC_SUFFIX_QUAD IULong 11)) None].
Proof. vm_compute. reflexivity. Qed.
(** tests/immcgen/test_expression.c test_immcgen_iliteral_expr_long_long *)
Definition test_immcgen_iliteral_expr_long_long := local_test false (new_iliteral_srt DTYPE_LONGLONG (new_signed ILongLong 13)) None None.
Example test_immcgen_iliteral_expr_long_long_ok : test_immcgen_iliteral_expr_long_long = Ok
  [new_inst_immc IMMC_INST_LOAD (Some (new_signed_reg_immcope IMMC_SUFFIX_QUAD 0)) (Some (new_signed_int_immcope IMMC_SUFFIX_QUAD ILongLong 13)) None].
Proof. vm_compute. reflexivity. Qed.
(** tests/immcgen/test_expression.c test_immcgen_iliteral_expr_unsigned_long_long *)
Definition test_immcgen_iliteral_expr_unsigned_long_long := local_test false (new_iliteral_srt DTYPE_UNSIGNED_LONGLONG (new_unsigned IULongLong 17)) None None.
Example test_immcgen_iliteral_expr_unsigned_long_long_ok : test_immcgen_iliteral_expr_unsigned_long_long = Ok
  [new_inst_immc IMMC_INST_LOAD (Some (new_unsigned_reg_immcope IMMC_SUFFIX_QUAD 0)) (Some (new_unsigned_int_immcope IMMC_SUFFIX_QUAD IULongLong 17)) None].
Proof. vm_compute. reflexivity. Qed.
(** tests/immcgen/test_statement.c test_immcgen_case_stmt *)
Definition test_immcgen_case_stmt := stmt_test (new_srt SRT_SWITCH_STMT [(new_identifier_srt SRT_IDENT_EXPR DTYPE_INT [120]); (new_srt SRT_CASE_STMT [(new_iliteral_srt DTYPE_INT (new_signed IInt 0)); (new_srt SRT_EXPR_STMT [(new_dtyped_srt SRT_ASSIGN_EXPR DTYPE_INT [(new_dtyped_srt SRT_ADDR_EXPR (DTYPE_POINTER DTYPE_INT) [(new_identifier_srt SRT_IDENT_EXPR DTYPE_INT [121])]); (new_iliteral_srt DTYPE_INT (new_signed IInt 1))])])])]) (Some [(fun t => sym_define_memory t [120] DTYPE_INT); (fun t => sym_define_memory t [121] DTYPE_INT)]) (-1).
Example test_immcgen_case_stmt_ok : test_immcgen_case_stmt = Ok
  [new_inst_immc IMMC_INST_LOAD (Some (new_signed_reg_immcope IMMC_SUFFIX_LONG 0)) (Some (new_mem_immcope 4)) None;
   new_inst_immc IMMC_INST_JEQ (Some (new_label_immcope [46; 76; 49])) (Some (new_signed_reg_immcope IMMC_SUFFIX_LONG 0)) (Some (new_signed_int_immcope IMMC_SUFFIX_LONG IInt 0));
   new_inst_immc IMMC_INST_JMP (Some (new_label_immcope [46; 76; 48])) None None;
   new_label_immc IMMC_LABEL_NORMAL IMMC_VIS_NONE [46; 76; 49];
   new_inst_immc IMMC_INST_LOAD (Some (new_signed_reg_immcope IMMC_SUFFIX_LONG 1)) (Some (new_signed_int_immcope IMMC_SUFFIX_LONG IInt 1)) None;
   new_inst_immc IMMC_INST_STORE (Some (new_mem_immcope 8)) (Some (new_signed_reg_immcope IMMC_SUFFIX_LONG 1)) None;
   new_label_immc IMMC_LABEL_NORMAL IMMC_VIS_NONE [46; 76; 48]].
Proof. vm_compute. reflexivity. Qed.
(** tests/immcgen/test_statement.c test_immcgen_default_stmt *)
Definition test_immcgen_default_stmt := stmt_test (new_srt SRT_SWITCH_STMT [(new_identifier_srt SRT_IDENT_EXPR DTYPE_INT [120]); (new_srt SRT_DEFAULT_STMT [(new_srt SRT_EXPR_STMT [(new_dtyped_srt SRT_ASSIGN_EXPR DTYPE_INT [(new_dtyped_srt SRT_ADDR_EXPR (DTYPE_POINTER DTYPE_INT) [(new_identifier_srt SRT_IDENT_EXPR DTYPE_INT [121])]); (new_iliteral_srt DTYPE_INT (new_signed IInt 9))])])])]) (Some [(fun t => sym_define_memory t [120] DTYPE_INT); (fun t => sym_define_memory t [121] DTYPE_INT)]) (-1).
Example test_immcgen_default_stmt_ok : test_immcgen_default_stmt = Ok
  [new_inst_immc IMMC_INST_LOAD (Some (new_signed_reg_immcope IMMC_SUFFIX_LONG 0)) (Some (new_mem_immcope 4)) None;
   new_inst_immc IMMC_INST_JMP (Some (new_label_immcope [46; 76; 49])) None None;
   new_label_immc IMMC_LABEL_NORMAL IMMC_VIS_NONE [46; 76; 49];
   new_inst_immc IMMC_INST_LOAD (Some (new_signed_reg_immcope IMMC_SUFFIX_LONG 1)) (Some (new_signed_int_immcope IMMC_SUFFIX_LONG IInt 9)) None;
   new_inst_immc IMMC_INST_STORE (Some (new_mem_immcope 8)) (Some (new_signed_reg_immcope IMMC_SUFFIX_LONG 1)) None;
   new_label_immc IMMC_LABEL_NORMAL IMMC_VIS_NONE [46; 76; 48]].
Proof. vm_compute. reflexivity. Qed.
(** tests/immcgen/test_statement.c test_immcgen_compound_stmt_completed_typedef *)
Definition test_immcgen_compound_stmt_completed_typedef := stmt_test (new_srt SRT_CMPD_STMT [(new_srt SRT_DECL_LIST [(new_srt SRT_INIT_DECL [(new_identifier_srt SRT_IDENT_DECL (DTYPE_TYPEDEF (DTYPE_POINTER DTYPE_INT)) [112; 105; 110; 116])])]); (new_srt SRT_DECL_LIST [(new_srt SRT_INIT_DECL [(new_identifier_srt SRT_IDENT_DECL (DTYPE_POINTER DTYPE_INT) [112])]); (new_srt SRT_INIT_DECL [(new_identifier_srt SRT_IDENT_DECL (DTYPE_POINTER DTYPE_INT) [113])])]); (new_srt SRT_EXPR_STMT [(new_dtyped_srt SRT_ASSIGN_EXPR DTYPE_INT [(new_dtyped_srt SRT_ADDR_EXPR (DTYPE_POINTER DTYPE_INT) [(new_dtyped_srt SRT_INDIR_EXPR DTYPE_INT [(new_identifier_srt SRT_IDENT_EXPR (DTYPE_POINTER DTYPE_INT) [112])])]); (new_dtyped_srt SRT_ASSIGN_EXPR DTYPE_INT [(new_dtyped_srt SRT_ADDR_EXPR (DTYPE_POINTER DTYPE_INT) [(new_dtyped_srt SRT_INDIR_EXPR DTYPE_INT [(new_identifier_srt SRT_IDENT_EXPR (DTYPE_POINTER DTYPE_INT) [113])])]); (new_iliteral_srt DTYPE_INT (new_signed IInt 7))])])])]) None (-1).
Example test_immcgen_compound_stmt_completed_typedef_ok : test_immcgen_compound_stmt_completed_typedef = Ok
  [new_inst_immc IMMC_INST_LOAD (Some (new_signed_reg_immcope IMMC_SUFFIX_LONG 0)) (Some (new_signed_int_immcope IMMC_SUFFIX_LONG IInt 7)) None;
   new_inst_immc IMMC_INST_LOAD (Some (new_signed_reg_immcope IMMC_SUFFIX_QUAD 1)) (Some (new_mem_immcope 16)) None;
   new_inst_immc IMMC_INST_STORE (Some (new_ptr_immcope 1)) (Some (new_signed_reg_immcope IMMC_SUFFIX_LONG 0)) None;
   new_inst_immc IMMC_INST_LOAD (Some (new_signed_reg_immcope IMMC_SUFFIX_QUAD 2)) (Some (new_mem_immcope 8)) None;
   new_inst_immc IMMC_INST_STORE (Some (new_ptr_immcope 2)) (Some (new_signed_reg_immcope IMMC_SUFFIX_LONG 0)) None].
Proof. vm_compute. reflexivity. Qed.
(** tests/immcgen/test_statement.c test_immcgen_compound_stmt_int *)
Definition test_immcgen_compound_stmt_int := stmt_test (new_srt SRT_CMPD_STMT [(new_srt SRT_DECL_LIST [(new_srt SRT_INIT_DECL [(new_identifier_srt SRT_IDENT_DECL DTYPE_INT [120]); (new_srt SRT_INIT [(new_iliteral_srt DTYPE_INT (new_signed IInt 3))])]); (new_srt SRT_INIT_DECL [(new_identifier_srt SRT_IDENT_DECL DTYPE_INT [121]); (new_srt SRT_INIT [(new_iliteral_srt DTYPE_INT (new_signed IInt 1))])]); (new_srt SRT_INIT_DECL [(new_identifier_srt SRT_IDENT_DECL (DTYPE_POINTER DTYPE_INT) [122])])]); (new_srt SRT_EXPR_STMT [(new_dtyped_srt SRT_ASSIGN_EXPR DTYPE_INT [(new_dtyped_srt SRT_ADDR_EXPR (DTYPE_POINTER DTYPE_INT) [(new_dtyped_srt SRT_INDIR_EXPR DTYPE_INT [(new_identifier_srt SRT_IDENT_EXPR (DTYPE_POINTER DTYPE_INT) [122])])]); (new_dtyped_srt SRT_SUB_EXPR DTYPE_INT [(new_identifier_srt SRT_IDENT_EXPR DTYPE_INT [120]); (new_identifier_srt SRT_IDENT_EXPR DTYPE_INT [121])])])]); (new_srt SRT_EXPR_STMT [(new_dtyped_srt SRT_ASSIGN_EXPR DTYPE_INT [(new_dtyped_srt SRT_ADDR_EXPR (DTYPE_POINTER DTYPE_INT) [(new_identifier_srt SRT_IDENT_EXPR DTYPE_INT [120])]); (new_dtyped_srt SRT_MUL_EXPR DTYPE_INT [(new_iliteral_srt DTYPE_INT (new_signed IInt 2)); (new_identifier_srt SRT_IDENT_EXPR DTYPE_INT [120])])])])]) None (-1).
Example test_immcgen_compound_stmt_int_ok : test_immcgen_compound_stmt_int = Ok
  [new_inst_immc IMMC_INST_STORE (Some (new_mem_immcope 4)) (Some (new_signed_int_immcope IMMC_SUFFIX_LONG IInt 3)) None;
   new_inst_immc IMMC_INST_STORE (Some (new_mem_immcope 8)) (Some (new_signed_int_immcope IMMC_SUFFIX_LONG IInt 1)) None;
   new_inst_immc IMMC_INST_LOAD (Some (new_signed_reg_immcope IMMC_SUFFIX_LONG 0)) (Some (new_mem_immcope 4)) None;
   new_inst_immc IMMC_INST_LOAD (Some (new_signed_reg_immcope IMMC_SUFFIX_LONG 1)) (Some (new_mem_immcope 8)) None;
   new_inst_immc IMMC_INST_SUB (Some (new_signed_reg_immcope IMMC_SUFFIX_LONG 2)) (Some (new_signed_reg_immcope IMMC_SUFFIX_LONG 0)) (Some (new_signed_reg_immcope IMMC_SUFFIX_LONG 1));
   new_inst_immc IMMC_INST_LOAD (Some (new_signed_reg_immcope IMMC_SUFFIX_QUAD 3)) (Some (new_mem_immcope 16)) None;
   new_inst_immc IMMC_INST_STORE (Some (new_ptr_immcope 3)) (Some (new_signed_reg_immcope IMMC_SUFFIX_LONG 2)) None;
   new_inst_immc IMMC_INST_LOAD (Some (new_signed_reg_immcope IMMC_SUFFIX_LONG 4)) (Some (new_signed_int_immcope IMMC_SUFFIX_LONG IInt 2)) None;
   new_inst_immc IMMC_INST_LOAD (Some (new_signed_reg_immcope IMMC_SUFFIX_LONG 5)) (Some (new_mem_immcope 4)) None;
   new_inst_immc IMMC_INST_MUL (Some (new_signed_reg_immcope IMMC_SUFFIX_LONG 6)) (Some (new_signed_reg_immcope IMMC_SUFFIX_LONG 4)) (Some (new_signed_reg_immcope IMMC_SUFFIX_LONG 5));
   new_inst_immc IMMC_INST_STORE (Some (new_mem_immcope 4)) (Some (new_signed_reg_immcope IMMC_SUFFIX_LONG 6)) None].
Proof. vm_compute. reflexivity. Qed.
(** tests/immcgen/test_statement.c test_immcgen_compound_stmt_unsigned_int *)
Definition test_immcgen_compound_stmt_unsigned_int := stmt_test (new_srt SRT_CMPD_STMT [(new_srt SRT_DECL_LIST [(new_srt SRT_INIT_DECL [(new_identifier_srt SRT_IDENT_DECL DTYPE_UNSIGNED_INT [120]); (new_srt SRT_INIT [(new_iliteral_srt DTYPE_UNSIGNED_INT (new_unsigned IUInt 4))])])]); (new_srt SRT_DECL_LIST [(new_srt SRT_INIT_DECL [(new_identifier_srt SRT_IDENT_DECL DTYPE_UNSIGNED_INT [121]); (new_srt SRT_INIT [(new_iliteral_srt DTYPE_UNSIGNED_INT (new_unsigned IUInt 2))])])]); (new_srt SRT_DECL_LIST [(new_srt SRT_INIT_DECL [(new_identifier_srt SRT_IDENT_DECL (DTYPE_POINTER DTYPE_UNSIGNED_INT) [122])])]); (new_srt SRT_EXPR_STMT [(new_dtyped_srt SRT_ASSIGN_EXPR DTYPE_UNSIGNED_INT [(new_dtyped_srt SRT_ADDR_EXPR (DTYPE_POINTER DTYPE_UNSIGNED_INT) [(new_dtyped_srt SRT_INDIR_EXPR DTYPE_UNSIGNED_INT [(new_identifier_srt SRT_IDENT_EXPR (DTYPE_POINTER DTYPE_UNSIGNED_INT) [122])])]); (new_dtyped_srt SRT_DIV_EXPR DTYPE_UNSIGNED_INT [(new_identifier_srt SRT_IDENT_EXPR DTYPE_UNSIGNED_INT [120]); (new_identifier_srt SRT_IDENT_EXPR DTYPE_UNSIGNED_INT [121])])])])]) None (-1).
Example test_immcgen_compound_stmt_unsigned_int_ok : test_immcgen_compound_stmt_unsigned_int = Ok
  [new_inst_immc IMMC_INST_STORE (Some (new_mem_immcope 4)) (Some (new_unsigned_int_immcope IMMC_SUFFIX_LONG IUInt 4)) None;
   new_inst_immc IMMC_INST_STORE (Some (new_mem_immcope 8)) (Some (new_unsigned_int_immcope IMMC_SUFFIX_LONG IUInt 2)) None;
   new_inst_immc IMMC_INST_LOAD (Some (new_unsigned_reg_immcope IMMC_SUFFIX_LONG 0)) (Some (new_mem_immcope 4)) None;
   new_inst_immc IMMC_INST_LOAD (Some (new_unsigned_reg_immcope IMMC_SUFFIX_LONG 1)) (Some (new_mem_immcope 8)) None;
   new_inst_immc IMMC_INST_DIV (Some (new_unsigned_reg_immcope IMMC_SUFFIX_LONG 2)) (Some (new_unsigned_reg_immcope IMMC_SUFFIX_LONG 0)) (Some (new_unsigned_reg_immcope IMMC_SUFFIX_LONG 1));
   new_inst_immc IMMC_INST_LOAD (Some (new_signed_reg_immcope IMMC_SUFFIX_QUAD 3)) (Some (new_mem_immcope 16)) None;
   new_inst_immc IMMC_INST_STORE (Some (new_ptr_immcope 3)) (Some (new_unsigned_reg_immcope IMMC_SUFFIX_LONG 2)) None].
Proof. vm_compute. reflexivity. Qed.
(** tests/immcgen/test_statement.c test_immcgen_compound_stmt_long *)
Definition test_immcgen_compound_stmt_long := stmt_test (new_srt SRT_CMPD_STMT [(new_srt SRT_DECL_LIST [(new_srt SRT_INIT_DECL [(new_identifier_srt SRT_IDENT_DECL DTYPE_LONG [120]); (new_srt SRT_INIT [(new_iliteral_srt DTYPE_LONG (new_signed ILong 5))])])]); (new_srt SRT_DECL_LIST [(new_srt SRT_INIT_DECL [(new_identifier_srt SRT_IDENT_DECL DTYPE_LONG [121]); (new_srt SRT_INIT [(new_iliteral_srt DTYPE_LONG (new_signed ILong 3))])])]); (new_srt SRT_DECL_LIST [(new_srt SRT_INIT_DECL [(new_identifier_srt SRT_IDENT_DECL (DTYPE_POINTER DTYPE_LONG) [122])])]); (new_srt SRT_EXPR_STMT [(new_dtyped_srt SRT_ASSIGN_EXPR DTYPE_LONG [(new_dtyped_srt SRT_ADDR_EXPR (DTYPE_POINTER DTYPE_LONG) [(new_dtyped_srt SRT_INDIR_EXPR DTYPE_LONG [(new_identifier_srt SRT_IDENT_EXPR (DTYPE_POINTER DTYPE_LONG) [122])])]); (new_dtyped_srt SRT_ADD_EXPR DTYPE_LONG [(new_identifier_srt SRT_IDENT_EXPR DTYPE_LONG [120]); (new_identifier_srt SRT_IDENT_EXPR DTYPE_LONG [121])])])])]) None (-1).
Example test_immcgen_compound_stmt_long_ok : test_immcgen_compound_stmt_long = Ok
  [new_inst_immc IMMC_INST_STORE (Some (new_mem_immcope 8)) (Some (new_signed_int_immcope IMMC_SUFFIX_QUAD ILong 5)) None;
   new_inst_immc IMMC_INST_STORE (Some (new_mem_immcope 16)) (Some (new_signed_int_immcope IMMC_SUFFIX_QUAD ILong 3)) None;
   new_inst_immc IMMC_INST_LOAD (Some (new_signed_reg_immcope IMMC_SUFFIX_QUAD 0)) (Some (new_mem_immcope 8)) None;
   new_inst_immc IMMC_INST_LOAD (Some (new_signed_reg_immcope IMMC_SUFFIX_QUAD 1)) (Some (new_mem_immcope 16)) None;
   new_inst_immc IMMC_INST_ADD (Some (new_signed_reg_immcope IMMC_SUFFIX_QUAD 2)) (Some (new_signed_reg_immcope IMMC_SUFFIX_QUAD 0)) (Some (new_signed_reg_immcope IMMC_SUFFIX_QUAD 1));
   new_inst_immc IMMC_INST_LOAD (Some (new_signed_reg_immcope IMMC_SUFFIX_QUAD 3)) (Some (new_mem_immcope 24)) None;
   new_inst_immc IMMC_INST_STORE (Some (new_ptr_immcope 3)) (Some (new_signed_reg_immcope IMMC_SUFFIX_QUAD 2)) None].
Proof. vm_compute. reflexivity. Qed.
(** tests/immcgen/test_statement.c test_immcgen_compound_stmt_unsigned_long *)
Definition test_immcgen_compound_stmt_unsigned_long := stmt_test (new_srt SRT_CMPD_STMT [(new_srt SRT_DECL_LIST [(new_srt SRT_INIT_DECL [(new_identifier_srt SRT_IDENT_DECL DTYPE_UNSIGNED_LONG [120]); (new_srt SRT_INIT [(new_iliteral_srt DTYPE_UNSIGNED_LONG (new_unsigned IULong 6))])])]); (new_srt SRT_DECL_LIST [(new_srt SRT_INIT_DECL [(new_identifier_srt SRT_IDENT_DECL DTYPE_UNSIGNED_LONG [121]); (new_srt SRT_INIT [(new_iliteral_srt DTYPE_UNSIGNED_LONG (new_unsigned IULong 4))])])]); (new_srt SRT_DECL_LIST [(new_srt SRT_INIT_DECL [(new_identifier_srt SRT_IDENT_DECL (DTYPE_POINTER DTYPE_UNSIGNED_LONG) [122])])]); (new_srt SRT_EXPR_STMT [(new_dtyped_srt SRT_ASSIGN_EXPR DTYPE_UNSIGNED_LONG [(new_dtyped_srt SRT_ADDR_EXPR (DTYPE_POINTER DTYPE_UNSIGNED_LONG) [(new_dtyped_srt SRT_INDIR_EXPR DTYPE_UNSIGNED_LONG [(new_identifier_srt SRT_IDENT_EXPR (DTYPE_POINTER DTYPE_UNSIGNED_LONG) [122])])]); (new_dtyped_srt SRT_SUB_EXPR DTYPE_UNSIGNED_LONG [(new_identifier_srt SRT_IDENT_EXPR DTYPE_UNSIGNED_LONG [120]); (new_identifier_srt SRT_IDENT_EXPR DTYPE_UNSIGNED_LONG [121])])])])]) None (-1).
Example test_immcgen_compound_stmt_unsigned_long_ok : test_immcgen_compound_stmt_unsigned_long = Ok
  [new_inst_immc IMMC_INST_STORE (Some (new_mem_immcope 8)) (Some (new_unsigned_int_immcope IMMC_SUFFIX_QUAD IULong 6)) None;
   new_inst_immc IMMC_INST_STORE (Some (new_mem_immcope 16)) (Some (new_unsigned_int_immcope IMMC_SUFFIX_QUAD IULong 4)) None;
   new_inst_immc IMMC_INST_LOAD (Some (new_unsigned_reg_immcope IMMC_SUFFIX_QUAD 0)) (Some (new_mem_immcope 8)) None;
   new_inst_immc IMMC_INST_LOAD (Some (new_unsigned_reg_immcope IMMC_SUFFIX_QUAD 1)) (Some (new_mem_immcope 16)) None;
   new_inst_immc IMMC_INST_SUB (Some (new_unsigned_reg_immcope IMMC_SUFFIX_QUAD 2)) (Some (new_unsigned_reg_immcope IMMC_SUFFIX_QUAD 0)) (Some (new_unsigned_reg_immcope IMMC_SUFFIX_QUAD 1));
   new_inst_immc IMMC_INST_LOAD (Some (new_signed_reg_immcope IMMC_SUFFIX_QUAD 3)) (Some (new_mem_immcope 24)) None;
   new_inst_immc IMMC_INST_STORE (Some (new_ptr_immcope 3)) (Some (new_unsigned_reg_immcope IMMC_SUFFIX_QUAD 2)) None].
Proof. vm_compute. reflexivity. Qed.
(** tests/immcgen/test_statement.c test_immcgen_compound_stmt_long_long *)
Definition test_immcgen_compound_stmt_long_long := stmt_test (new_srt SRT_CMPD_STMT [(new_srt SRT_DECL_LIST [(new_srt SRT_INIT_DECL [(new_identifier_srt SRT_IDENT_DECL DTYPE_LONGLONG [120]); (new_srt SRT_INIT [(new_iliteral_srt DTYPE_LONGLONG (new_signed ILongLong 7))])])]); (new_srt SRT_DECL_LIST [(new_srt SRT_INIT_DECL [(new_identifier_srt SRT_IDENT_DECL DTYPE_LONGLONG [121]); (new_srt SRT_INIT [(new_iliteral_srt DTYPE_LONGLONG (new_signed ILongLong 5))])])]); (new_srt SRT_DECL_LIST [(new_srt SRT_INIT_DECL [(new_identifier_srt SRT_IDENT_DECL (DTYPE_POINTER DTYPE_LONGLONG) [122])])]); (new_srt SRT_EXPR_STMT [(new_dtyped_srt SRT_ASSIGN_EXPR DTYPE_LONGLONG [(new_dtyped_srt SRT_ADDR_EXPR (DTYPE_POINTER DTYPE_LONGLONG) [(new_dtyped_srt SRT_INDIR_EXPR DTYPE_LONGLONG [(new_identifier_srt SRT_IDENT_EXPR (DTYPE_POINTER DTYPE_LONGLONG) [122])])]); (new_dtyped_srt SRT_ADD_EXPR DTYPE_LONGLONG [(new_identifier_srt SRT_IDENT_EXPR DTYPE_LONGLONG [120]); (new_identifier_srt SRT_IDENT_EXPR DTYPE_LONGLONG [121])])])])]) None (-1).
Example test_immcgen_compound_stmt_long_long_ok : test_immcgen_compound_stmt_long_long = Ok
  [new_inst_immc IMMC_INST_STORE (Some (new_mem_immcope 8)) (Some (new_signed_int_immcope IMMC_SUFFIX_QUAD ILongLong 7)) None;
   new_inst_immc IMMC_INST_STORE (Some (new_mem_immcope 16)) (Some (new_signed_int_immcope IMMC_SUFFIX_QUAD ILongLong 5)) None;
   new_inst_immc IMMC_INST_LOAD (Some (new_signed_reg_immcope IMMC_SUFFIX_QUAD 0)) (Some (new_mem_immcope 8)) None;
   new_inst_immc IMMC_INST_LOAD (Some (new_signed_reg_immcope IMMC_SUFFIX_QUAD 1)) (Some (new_mem_immcope 16)) None;
   new_inst_immc IMMC_INST_ADD (Some (new_signed_reg_immcope IMMC_SUFFIX_QUAD 2)) (Some (new_signed_reg_immcope IMMC_SUFFIX_QUAD 0)) (Some (new_signed_reg_immcope IMMC_SUFFIX_QUAD 1));
   new_inst_immc IMMC_INST_LOAD (Some (new_signed_reg_immcope IMMC_SUFFIX_QUAD 3)) (Some (new_mem_immcope 24)) None;
   new_inst_immc IMMC_INST_STORE (Some (new_ptr_immcope 3)) (Some (new_signed_reg_immcope IMMC_SUFFIX_QUAD 2)) None].
Proof. vm_compute. reflexivity. Qed.
(** tests/immcgen/test_statement.c test_immcgen_compound_stmt_unsigned_long_long *)
Definition test_immcgen_compound_stmt_unsigned_long_long := stmt_test (new_srt SRT_CMPD_STMT [(new_srt SRT_DECL_LIST [(new_srt SRT_INIT_DECL [(new_identifier_srt SRT_IDENT_DECL DTYPE_UNSIGNED_LONGLONG [120]); (new_srt SRT_INIT [(new_iliteral_srt DTYPE_UNSIGNED_LONGLONG (new_unsigned IULongLong 8))])])]); (new_srt SRT_DECL_LIST [(new_srt SRT_INIT_DECL [(new_identifier_srt SRT_IDENT_DECL DTYPE_UNSIGNED_LONGLONG [121]); (new_srt SRT_INIT [(new_iliteral_srt DTYPE_UNSIGNED_LONGLONG (new_unsigned IULongLong 6))])])]); (new_srt SRT_DECL_LIST [(new_srt SRT_INIT_DECL [(new_identifier_srt SRT_IDENT_DECL (DTYPE_POINTER DTYPE_UNSIGNED_LONGLONG) [122])])]); (new_srt SRT_EXPR_STMT [(new_dtyped_srt SRT_ASSIGN_EXPR DTYPE_UNSIGNED_LONGLONG [(new_dtyped_srt SRT_ADDR_EXPR (DTYPE_POINTER DTYPE_UNSIGNED_LONGLONG) [(new_dtyped_srt SRT_INDIR_EXPR DTYPE_UNSIGNED_LONGLONG [(new_identifier_srt SRT_IDENT_EXPR (DTYPE_POINTER DTYPE_UNSIGNED_LONGLONG) [122])])]); (new_dtyped_srt SRT_SUB_EXPR DTYPE_UNSIGNED_LONGLONG [(new_identifier_srt SRT_IDENT_EXPR DTYPE_UNSIGNED_LONGLONG [120]); (new_identifier_srt SRT_IDENT_EXPR DTYPE_UNSIGNED_LONGLONG [121])])])])]) None (-1).
Example test_immcgen_compound_stmt_unsigned_long_long_ok : test_immcgen_compound_stmt_unsigned_long_long = Ok
  [new_inst_immc IMMC_INST_STORE (Some (new_mem_immcope 8)) (Some (new_unsigned_int_immcope IMMC_SUFFIX_QUAD IULongLong 8)) None;
   new_inst_immc IMMC_INST_STORE (Some (new_mem_immcope 16)) (Some (new_unsigned_int_immcope IMMC_SUFFIX_QUAD IULongLong 6)) None;
   new_inst_immc IMMC_INST_LOAD (Some (new_unsigned_reg_immcope IMMC_SUFFIX_QUAD 0)) (Some (new_mem_immcope 8)) None;
   new_inst_immc IMMC_INST_LOAD (Some (new_unsigned_reg_immcope IMMC_SUFFIX_QUAD 1)) (Some (new_mem_immcope 16)) None;
   new_inst_immc IMMC_INST_SUB (Some (new_unsigned_reg_immcope IMMC_SUFFIX_QUAD 2)) (Some (new_unsigned_reg_immcope IMMC_SUFFIX_QUAD 0)) (Some (new_unsigned_reg_immcope IMMC_SUFFIX_QUAD 1));
   new_inst_immc IMMC_INST_LOAD (Some (new_signed_reg_immcope IMMC_SUFFIX_QUAD 3)) (Some (new_mem_immcope 24)) None;
   new_inst_immc IMMC_INST_STORE (Some (new_ptr_immcope 3)) (Some (new_unsigned_reg_immcope IMMC_SUFFIX_QUAD 2)) None].
Proof. vm_compute. reflexivity. Qed.
(** tests/immcgen/test_statement.c test_immcgen_compound_stmt_void_pointer *)
Definition test_immcgen_compound_stmt_void_pointer := stmt_test (new_srt SRT_CMPD_STMT [(new_srt SRT_DECL_LIST [(new_srt SRT_INIT_DECL [(new_identifier_srt SRT_IDENT_DECL (DTYPE_FUNCTION [(Some [110], DTYPE_INT)] (DTYPE_POINTER DTYPE_VOID)) [109; 97; 108; 108; 111; 99])])]); (new_srt SRT_DECL_LIST [(new_srt SRT_INIT_DECL [(new_identifier_srt SRT_IDENT_DECL (DTYPE_FUNCTION [(Some [112], (DTYPE_POINTER DTYPE_VOID))] DTYPE_VOID) [102; 114; 101; 101])])]); (new_srt SRT_DECL_LIST [(new_srt SRT_INIT_DECL [(new_identifier_srt SRT_IDENT_DECL (DTYPE_POINTER DTYPE_INT) [120]); (new_srt SRT_INIT [(new_dtyped_srt SRT_CAST_EXPR (DTYPE_POINTER DTYPE_INT) [(new_dtyped_srt SRT_CALL_EXPR (DTYPE_POINTER DTYPE_VOID) [(new_dtyped_srt SRT_ADDR_EXPR (DTYPE_POINTER (DTYPE_FUNCTION [(Some [110], DTYPE_INT)] (DTYPE_POINTER DTYPE_VOID))) [(new_identifier_srt SRT_IDENT_EXPR (DTYPE_FUNCTION [(Some [110], DTYPE_INT)] (DTYPE_POINTER DTYPE_VOID)) [109; 97; 108; 108; 111; 99])]); (new_srt SRT_ARG_LIST [(new_iliteral_srt DTYPE_INT (new_signed IInt 4))])])])])])]); (new_srt SRT_EXPR_STMT [(new_dtyped_srt SRT_CALL_EXPR DTYPE_VOID [(new_dtyped_srt SRT_ADDR_EXPR (DTYPE_POINTER (DTYPE_FUNCTION [(Some [112], (DTYPE_POINTER DTYPE_VOID))] DTYPE_VOID)) [(new_identifier_srt SRT_IDENT_EXPR (DTYPE_FUNCTION [(Some [112], (DTYPE_POINTER DTYPE_VOID))] DTYPE_VOID) [102; 114; 101; 101])]); (new_srt SRT_ARG_LIST [(new_dtyped_srt SRT_CAST_EXPR (DTYPE_POINTER DTYPE_VOID) [(new_identifier_srt SRT_IDENT_EXPR (DTYPE_POINTER DTYPE_INT) [120])])])])])]) None (-1).
Example test_immcgen_compound_stmt_void_pointer_ok : test_immcgen_compound_stmt_void_pointer = Ok
  [new_inst_immc IMMC_INST_PREP None (Some (new_signed_int_immcope IMMC_SUFFIX_NONE IInt 1)) None;
   new_inst_immc IMMC_INST_STARG (Some (new_signed_arg_immcope IMMC_SUFFIX_LONG 0)) (Some (new_signed_int_immcope IMMC_SUFFIX_LONG IInt 4)) None;
   new_inst_immc IMMC_INST_CALL (Some (new_signed_reg_immcope IMMC_SUFFIX_QUAD 0)) (Some (new_label_immcope [109; 97; 108; 108; 111; 99])) (Some (new_signed_int_immcope IMMC_SUFFIX_NONE IInt 1));
   new_inst_immc IMMC_INST_CLEAN None (Some (new_signed_int_immcope IMMC_SUFFIX_NONE IInt 1)) None;
   new_inst_immc IMMC_INST_LOAD (Some (new_signed_reg_immcope IMMC_SUFFIX_QUAD 1)) (Some (new_signed_reg_immcope IMMC_SUFFIX_QUAD 0)) None;
   new_inst_immc IMMC_INST_STORE (Some (new_mem_immcope 8)) (Some (new_signed_reg_immcope IMMC_SUFFIX_QUAD 1)) None;
   new_inst_immc IMMC_INST_PREP None (Some (new_signed_int_immcope IMMC_SUFFIX_NONE IInt 1)) None;
   new_inst_immc IMMC_INST_LOAD (Some (new_signed_reg_immcope IMMC_SUFFIX_QUAD 2)) (Some (new_mem_immcope 8)) None;
   new_inst_immc IMMC_INST_LOAD (Some (new_signed_reg_immcope IMMC_SUFFIX_QUAD 3)) (Some (new_signed_reg_immcope IMMC_SUFFIX_QUAD 2)) None;
   new_inst_immc IMMC_INST_STARG (Some (new_signed_arg_immcope IMMC_SUFFIX_QUAD 0)) (Some (new_signed_reg_immcope IMMC_SUFFIX_QUAD 3)) None;
   new_inst_immc IMMC_INST_CALL None (Some (new_label_immcope [102; 114; 101; 101])) (Some (new_signed_int_immcope IMMC_SUFFIX_NONE IInt 1));
   new_inst_immc IMMC_INST_CLEAN None (Some (new_signed_int_immcope IMMC_SUFFIX_NONE IInt 1)) None].
Proof. vm_compute. reflexivity. Qed.
(** tests/immcgen/test_statement.c test_immcgen_compound_stmt_empty *)
Definition test_immcgen_compound_stmt_empty := stmt_test (new_srt SRT_CMPD_STMT []) None (-1).
Example test_immcgen_compound_stmt_empty_ok : test_immcgen_compound_stmt_empty = Ok
  [].
Proof. vm_compute. reflexivity. Qed.
(** tests/immcgen/test_statement.c test_immcgen_continue_stmt *)
Definition test_immcgen_continue_stmt := stmt_test (new_srt SRT_WHILE_STMT [(new_iliteral_srt DTYPE_INT (new_signed IInt 1)); (new_srt SRT_CMPD_STMT [(new_srt SRT_CONTINUE_STMT [])])]) None 0.
Example test_immcgen_continue_stmt_ok : test_immcgen_continue_stmt = Ok
  [new_label_immc IMMC_LABEL_NORMAL IMMC_VIS_NONE [46; 76; 48];
   new_inst_immc IMMC_INST_LOAD (Some (new_signed_reg_immcope IMMC_SUFFIX_LONG 0)) (Some (new_signed_int_immcope IMMC_SUFFIX_LONG IInt 1)) None;
   new_inst_immc IMMC_INST_JEQ (Some (new_label_immcope [46; 76; 49])) (Some (new_signed_reg_immcope IMMC_SUFFIX_LONG 0)) (Some (new_signed_int_immcope IMMC_SUFFIX_LONG IInt 0));
   new_inst_immc IMMC_INST_JMP (Some (new_label_immcope [46; 76; 48])) None None;
   new_inst_immc IMMC_INST_JMP (Some (new_label_immcope [46; 76; 48])) None None;
   new_label_immc IMMC_LABEL_NORMAL IMMC_VIS_NONE [46; 76; 49]].
Proof. vm_compute. reflexivity. Qed.
(** tests/immcgen/test_statement.c test_immcgen_continue_stmt_nested *)
Definition test_immcgen_continue_stmt_nested := stmt_test (new_srt SRT_WHILE_STMT [(new_iliteral_srt DTYPE_INT (new_signed IInt 1)); (new_srt SRT_CMPD_STMT [(new_srt SRT_CONTINUE_STMT []); (new_srt SRT_FOR_STMT [(new_srt SRT_NULL_STMT []); (new_srt SRT_NULL_STMT []); (new_srt SRT_NULL_STMT []); (new_srt SRT_CMPD_STMT [(new_srt SRT_CONTINUE_STMT [])])]); (new_srt SRT_CONTINUE_STMT [])])]) None 0.
Example test_immcgen_continue_stmt_nested_ok : test_immcgen_continue_stmt_nested = Ok
  [new_label_immc IMMC_LABEL_NORMAL IMMC_VIS_NONE [46; 76; 48];
   new_inst_immc IMMC_INST_LOAD (Some (new_signed_reg_immcope IMMC_SUFFIX_LONG 0)) (Some (new_signed_int_immcope IMMC_SUFFIX_LONG IInt 1)) None;
   new_inst_immc IMMC_INST_JEQ (Some (new_label_immcope [46; 76; 49])) (Some (new_signed_reg_immcope IMMC_SUFFIX_LONG 0)) (Some (new_signed_int_immcope IMMC_SUFFIX_LONG IInt 0));
   new_inst_immc IMMC_INST_JMP (Some (new_label_immcope [46; 76; 48])) None None;
   new_label_immc IMMC_LABEL_NORMAL IMMC_VIS_NONE [46; 76; 50];
   new_inst_immc IMMC_INST_JMP (Some (new_label_immcope [46; 76; 51])) None None;
   new_label_immc IMMC_LABEL_NORMAL IMMC_VIS_NONE [46; 76; 51];
   new_inst_immc IMMC_INST_JMP (Some (new_label_immcope [46; 76; 50])) None None;
   new_label_immc IMMC_LABEL_NORMAL IMMC_VIS_NONE [46; 76; 52];
   new_inst_immc IMMC_INST_JMP (Some (new_label_immcope [46; 76; 48])) None None;
   new_inst_immc IMMC_INST_JMP (Some (new_label_immcope [46; 76; 48])) None None;
   new_label_immc IMMC_LABEL_NORMAL IMMC_VIS_NONE [46; 76; 49]].
Proof. vm_compute. reflexivity. Qed.
(** tests/immcgen/test_statement.c test_immcgen_break_stmt *)
Definition test_immcgen_break_stmt := stmt_test (new_srt SRT_FOR_STMT [(new_srt SRT_NULL_STMT []); (new_srt SRT_NULL_STMT []); (new_srt SRT_NULL_STMT []); (new_srt SRT_CMPD_STMT [(new_srt SRT_BREAK_STMT [])])]) None 0.
Example test_immcgen_break_stmt_ok : test_immcgen_break_stmt = Ok
  [new_label_immc IMMC_LABEL_NORMAL IMMC_VIS_NONE [46; 76; 48];
   new_inst_immc IMMC_INST_JMP (Some (new_label_immcope [46; 76; 50])) None None;
   new_label_immc IMMC_LABEL_NORMAL IMMC_VIS_NONE [46; 76; 49];
   new_inst_immc IMMC_INST_JMP (Some (new_label_immcope [46; 76; 48])) None None;
   new_label_immc IMMC_LABEL_NORMAL IMMC_VIS_NONE [46; 76; 50]].
Proof. vm_compute. reflexivity. Qed.
(** tests/immcgen/test_statement.c test_immcgen_break_stmt_nested *)
Definition test_immcgen_break_stmt_nested := stmt_test (new_srt SRT_FOR_STMT [(new_srt SRT_NULL_STMT []); (new_srt SRT_NULL_STMT []); (new_srt SRT_NULL_STMT []); (new_srt SRT_CMPD_STMT [(new_srt SRT_BREAK_STMT []); (new_srt SRT_WHILE_STMT [(new_iliteral_srt DTYPE_INT (new_signed IInt 1)); (new_srt SRT_CMPD_STMT [(new_srt SRT_BREAK_STMT [])])]); (new_srt SRT_BREAK_STMT [])])]) None 0.
Example test_immcgen_break_stmt_nested_ok : test_immcgen_break_stmt_nested = Ok
  [new_label_immc IMMC_LABEL_NORMAL IMMC_VIS_NONE [46; 76; 48];
   new_inst_immc IMMC_INST_JMP (Some (new_label_immcope [46; 76; 50])) None None;
   new_label_immc IMMC_LABEL_NORMAL IMMC_VIS_NONE [46; 76; 51];
   new_inst_immc IMMC_INST_LOAD (Some (new_signed_reg_immcope IMMC_SUFFIX_LONG 0)) (Some (new_signed_int_immcope IMMC_SUFFIX_LONG IInt 1)) None;
   new_inst_immc IMMC_INST_JEQ (Some (new_label_immcope [46; 76; 52])) (Some (new_signed_reg_immcope IMMC_SUFFIX_LONG 0)) (Some (new_signed_int_immcope IMMC_SUFFIX_LONG IInt 0));
   new_inst_immc IMMC_INST_JMP (Some (new_label_immcope [46; 76; 52])) None None;
   new_inst_immc IMMC_INST_JMP (Some (new_label_immcope [46; 76; 51])) None None;
   new_label_immc IMMC_LABEL_NORMAL IMMC_VIS_NONE [46; 76; 52];
   new_inst_immc IMMC_INST_JMP (Some (new_label_immcope [46; 76; 50])) None None;
   new_label_immc IMMC_LABEL_NORMAL IMMC_VIS_NONE [46; 76; 49];
   new_inst_immc IMMC_INST_JMP (Some (new_label_immcope [46; 76; 48])) None None;
   new_label_immc IMMC_LABEL_NORMAL IMMC_VIS_NONE [46; 76; 50]].
Proof. vm_compute. reflexivity. Qed.
(** tests/immcgen/test_statement.c test_immcgen_return_stmt_non_void *)
Definition test_immcgen_return_stmt_non_void := stmt_test (new_srt SRT_RET_STMT [(new_iliteral_srt DTYPE_INT (new_signed IInt 0))]) None 0.
Example test_immcgen_return_stmt_non_void_ok : test_immcgen_return_stmt_non_void = Ok
  [new_inst_immc IMMC_INST_STRET None (Some (new_signed_int_immcope IMMC_SUFFIX_LONG IInt 0)) None;
   new_inst_immc IMMC_INST_JMP (Some (new_label_immcope [46; 76; 48])) None None].
Proof. vm_compute. reflexivity. Qed.
(** tests/immcgen/test_statement.c test_immcgen_return_stmt_void *)
Definition test_immcgen_return_stmt_void := stmt_test (new_srt SRT_RET_STMT []) None 0.
Example test_immcgen_return_stmt_void_ok : test_immcgen_return_stmt_void = Ok
  [new_inst_immc IMMC_INST_JMP (Some (new_label_immcope [46; 76; 48])) None None].
Proof. vm_compute. reflexivity. Qed.
(** tests/immcgen/test_statement.c test_immcgen_expression_stmt *)
Definition test_immcgen_expression_stmt := stmt_test (new_srt SRT_EXPR_STMT [(new_dtyped_srt SRT_ASSIGN_EXPR DTYPE_INT [(new_dtyped_srt SRT_ADDR_EXPR (DTYPE_POINTER DTYPE_INT) [(new_identifier_srt SRT_IDENT_EXPR DTYPE_INT [120])]); (new_iliteral_srt DTYPE_INT (new_signed IInt 12))])]) (Some [(fun t => sym_define_memory t [120] DTYPE_INT)]) (-1).
Example test_immcgen_expression_stmt_ok : test_immcgen_expression_stmt = Ok
  [new_inst_immc IMMC_INST_LOAD (Some (new_signed_reg_immcope IMMC_SUFFIX_LONG 0)) (Some (new_signed_int_immcope IMMC_SUFFIX_LONG IInt 12)) None;
   new_inst_immc IMMC_INST_STORE (Some (new_mem_immcope 4)) (Some (new_signed_reg_immcope IMMC_SUFFIX_LONG 0)) None].
Proof. vm_compute. reflexivity. Qed.
(** tests/immcgen/test_statement.c test_immcgen_null_stmt *)
Definition test_immcgen_null_stmt := stmt_test (new_srt SRT_NULL_STMT []) None (-1).
Example test_immcgen_null_stmt_ok : test_immcgen_null_stmt = Ok
  [].
Proof. vm_compute. reflexivity. Qed.
(** tests/immcgen/test_statement.c test_immcgen_if_stmt *)
Definition test_immcgen_if_stmt := stmt_test (new_srt SRT_IF_STMT [(new_dtyped_srt SRT_LESSEQ_EXPR DTYPE_INT [(new_identifier_srt SRT_IDENT_EXPR DTYPE_INT [120]); (new_iliteral_srt DTYPE_INT (new_signed IInt 0))]); (new_srt SRT_EXPR_STMT [(new_dtyped_srt SRT_ASSIGN_EXPR DTYPE_INT [(new_dtyped_srt SRT_ADDR_EXPR (DTYPE_POINTER DTYPE_INT) [(new_identifier_srt SRT_IDENT_EXPR DTYPE_INT [121])]); (new_iliteral_srt DTYPE_INT (new_signed IInt 1))])])]) (Some [(fun t => sym_define_memory t [120] DTYPE_INT); (fun t => sym_define_memory t [121] DTYPE_INT)]) (-1).
Example test_immcgen_if_stmt_ok : test_immcgen_if_stmt = Ok
  [new_inst_immc IMMC_INST_LOAD (Some (new_signed_reg_immcope IMMC_SUFFIX_LONG 0)) (Some (new_mem_immcope 4)) None;
   new_inst_immc IMMC_INST_JGT (Some (new_label_immcope [46; 76; 48])) (Some (new_signed_reg_immcope IMMC_SUFFIX_LONG 0)) (Some (new_signed_int_immcope IMMC_SUFFIX_LONG IInt 0));
   new_inst_immc IMMC_INST_LOAD (Some (new_signed_reg_immcope IMMC_SUFFIX_LONG 1)) (Some (new_signed_int_immcope IMMC_SUFFIX_LONG IInt 1)) None;
   new_inst_immc IMMC_INST_STORE (Some (new_mem_immcope 8)) (Some (new_signed_reg_immcope IMMC_SUFFIX_LONG 1)) None;
   new_label_immc IMMC_LABEL_NORMAL IMMC_VIS_NONE [46; 76; 48]].
Proof. vm_compute. reflexivity. Qed.
(** tests/immcgen/test_statement.c test_immcgen_if_stmt_nested *)
Definition test_immcgen_if_stmt_nested := stmt_test (new_srt SRT_IF_STMT [(new_dtyped_srt SRT_EQUAL_EXPR DTYPE_INT [(new_identifier_srt SRT_IDENT_EXPR DTYPE_INT [120]); (new_iliteral_srt DTYPE_INT (new_signed IInt 0))]); (new_srt SRT_IF_STMT [(new_dtyped_srt SRT_EQUAL_EXPR DTYPE_INT [(new_identifier_srt SRT_IDENT_EXPR DTYPE_INT [121]); (new_iliteral_srt DTYPE_INT (new_signed IInt 0))]); (new_srt SRT_EXPR_STMT [(new_dtyped_srt SRT_ASSIGN_EXPR DTYPE_INT [(new_dtyped_srt SRT_ADDR_EXPR (DTYPE_POINTER DTYPE_INT) [(new_identifier_srt SRT_IDENT_EXPR DTYPE_INT [122])]); (new_iliteral_srt DTYPE_INT (new_signed IInt 1))])])])]) (Some [(fun t => sym_define_memory t [120] DTYPE_INT); (fun t => sym_define_memory t [121] DTYPE_INT); (fun t => sym_define_memory t [122] DTYPE_INT)]) (-1).
Example test_immcgen_if_stmt_nested_ok : test_immcgen_if_stmt_nested = Ok
  [new_inst_immc IMMC_INST_LOAD (Some (new_signed_reg_immcope IMMC_SUFFIX_LONG 0)) (Some (new_mem_immcope 4)) None;
   new_inst_immc IMMC_INST_JNEQ (Some (new_label_immcope [46; 76; 49])) (Some (new_signed_reg_immcope IMMC_SUFFIX_LONG 0)) (Some (new_signed_int_immcope IMMC_SUFFIX_LONG IInt 0));
   new_inst_immc IMMC_INST_LOAD (Some (new_signed_reg_immcope IMMC_SUFFIX_LONG 1)) (Some (new_mem_immcope 8)) None;
   new_inst_immc IMMC_INST_JNEQ (Some (new_label_immcope [46; 76; 49])) (Some (new_signed_reg_immcope IMMC_SUFFIX_LONG 1)) (Some (new_signed_int_immcope IMMC_SUFFIX_LONG IInt 0));
   new_inst_immc IMMC_INST_LOAD (Some (new_signed_reg_immcope IMMC_SUFFIX_LONG 2)) (Some (new_signed_int_immcope IMMC_SUFFIX_LONG IInt 1)) None;
   new_inst_immc IMMC_INST_STORE (Some (new_mem_immcope 12)) (Some (new_signed_reg_immcope IMMC_SUFFIX_LONG 2)) None;
   new_label_immc IMMC_LABEL_NORMAL IMMC_VIS_NONE [46; 76; 49]].
Proof. vm_compute. reflexivity. Qed.
(** tests/immcgen/test_statement.c test_immcgen_if_else_stmt *)
Definition test_immcgen_if_else_stmt := stmt_test (new_srt SRT_CMPD_STMT [(new_srt SRT_IF_STMT [(new_dtyped_srt SRT_EQUAL_EXPR DTYPE_INT [(new_identifier_srt SRT_IDENT_EXPR DTYPE_INT [120]); (new_iliteral_srt DTYPE_INT (new_signed IInt 0))]); (new_srt SRT_CMPD_STMT [(new_srt SRT_EXPR_STMT [(new_dtyped_srt SRT_ASSIGN_EXPR DTYPE_INT [(new_dtyped_srt SRT_ADDR_EXPR (DTYPE_POINTER DTYPE_INT) [(new_identifier_srt SRT_IDENT_EXPR DTYPE_INT [121])]); (new_iliteral_srt DTYPE_INT (new_signed IInt 1))])])]); (new_srt SRT_CMPD_STMT [(new_srt SRT_EXPR_STMT [(new_dtyped_srt SRT_ASSIGN_EXPR DTYPE_INT [(new_dtyped_srt SRT_ADDR_EXPR (DTYPE_POINTER DTYPE_INT) [(new_identifier_srt SRT_IDENT_EXPR DTYPE_INT [121])]); (new_iliteral_srt DTYPE_INT (new_signed IInt 2))])])])])]) (Some [(fun t => sym_define_memory t [120] DTYPE_INT); (fun t => sym_define_memory t [121] DTYPE_INT)]) (-1).
Example test_immcgen_if_else_stmt_ok : test_immcgen_if_else_stmt = Ok
  [new_inst_immc IMMC_INST_LOAD (Some (new_signed_reg_immcope IMMC_SUFFIX_LONG 0)) (Some (new_mem_immcope 4)) None;
   new_inst_immc IMMC_INST_JNEQ (Some (new_label_immcope [46; 76; 48])) (Some (new_signed_reg_immcope IMMC_SUFFIX_LONG 0)) (Some (new_signed_int_immcope IMMC_SUFFIX_LONG IInt 0));
   new_inst_immc IMMC_INST_LOAD (Some (new_signed_reg_immcope IMMC_SUFFIX_LONG 1)) (Some (new_signed_int_immcope IMMC_SUFFIX_LONG IInt 1)) None;
   new_inst_immc IMMC_INST_STORE (Some (new_mem_immcope 8)) (Some (new_signed_reg_immcope IMMC_SUFFIX_LONG 1)) None;
   new_inst_immc IMMC_INST_JMP (Some (new_label_immcope [46; 76; 49])) None None;
   new_label_immc IMMC_LABEL_NORMAL IMMC_VIS_NONE [46; 76; 48];
   new_inst_immc IMMC_INST_LOAD (Some (new_signed_reg_immcope IMMC_SUFFIX_LONG 2)) (Some (new_signed_int_immcope IMMC_SUFFIX_LONG IInt 2)) None;
   new_inst_immc IMMC_INST_STORE (Some (new_mem_immcope 8)) (Some (new_signed_reg_immcope IMMC_SUFFIX_LONG 2)) None;
   new_label_immc IMMC_LABEL_NORMAL IMMC_VIS_NONE [46; 76; 49]].
Proof. vm_compute. reflexivity. Qed.
(** tests/immcgen/test_statement.c test_immcgen_if_else_stmt_chain *)
Definition test_immcgen_if_else_stmt_chain := stmt_test (new_srt SRT_IF_STMT [(new_dtyped_srt SRT_LESS_EXPR DTYPE_INT [(new_identifier_srt SRT_IDENT_EXPR DTYPE_INT [120]); (new_iliteral_srt DTYPE_INT (new_signed IInt 0))]); (new_srt SRT_CMPD_STMT [(new_srt SRT_EXPR_STMT [(new_dtyped_srt SRT_ASSIGN_EXPR DTYPE_INT [(new_dtyped_srt SRT_ADDR_EXPR (DTYPE_POINTER DTYPE_INT) [(new_identifier_srt SRT_IDENT_EXPR DTYPE_INT [121])]); (new_dtyped_srt SRT_NEG_EXPR DTYPE_INT [(new_identifier_srt SRT_IDENT_EXPR DTYPE_INT [120])])])])]); (new_srt SRT_IF_STMT [(new_dtyped_srt SRT_GREATER_EXPR DTYPE_INT [(new_identifier_srt SRT_IDENT_EXPR DTYPE_INT [120]); (new_iliteral_srt DTYPE_INT (new_signed IInt 0))]); (new_srt SRT_CMPD_STMT [(new_srt SRT_EXPR_STMT [(new_dtyped_srt SRT_ASSIGN_EXPR DTYPE_INT [(new_dtyped_srt SRT_ADDR_EXPR (DTYPE_POINTER DTYPE_INT) [(new_identifier_srt SRT_IDENT_EXPR DTYPE_INT [121])]); (new_identifier_srt SRT_IDENT_EXPR DTYPE_INT [120])])])]); (new_srt SRT_CMPD_STMT [(new_srt SRT_EXPR_STMT [(new_dtyped_srt SRT_ASSIGN_EXPR DTYPE_INT [(new_dtyped_srt SRT_ADDR_EXPR (DTYPE_POINTER DTYPE_INT) [(new_identifier_srt SRT_IDENT_EXPR DTYPE_INT [121])]); (new_iliteral_srt DTYPE_INT (new_signed IInt 0))])])])])]) (Some [(fun t => sym_define_memory t [120] DTYPE_INT); (fun t => sym_define_memory t [121] DTYPE_INT)]) (-1).
Example test_immcgen_if_else_stmt_chain_ok : test_immcgen_if_else_stmt_chain = Ok
  [new_inst_immc IMMC_INST_LOAD (Some (new_signed_reg_immcope IMMC_SUFFIX_LONG 0)) (Some (new_mem_immcope 4)) None;
   new_inst_immc IMMC_INST_JGEQ (Some (new_label_immcope [46; 76; 48])) (Some (new_signed_reg_immcope IMMC_SUFFIX_LONG 0)) (Some (new_signed_int_immcope IMMC_SUFFIX_LONG IInt 0));
   new_inst_immc IMMC_INST_LOAD (Some (new_signed_reg_immcope IMMC_SUFFIX_LONG 1)) (Some (new_mem_immcope 4)) None;
   new_inst_immc IMMC_INST_NEG (Some (new_signed_reg_immcope IMMC_SUFFIX_LONG 2)) (Some (new_signed_reg_immcope IMMC_SUFFIX_LONG 1)) None;
   new_inst_immc IMMC_INST_STORE (Some (new_mem_immcope 8)) (Some (new_signed_reg_immcope IMMC_SUFFIX_LONG 2)) None;
   new_inst_immc IMMC_INST_JMP (Some (new_label_immcope [46; 76; 51])) None None;
   new_label_immc IMMC_LABEL_NORMAL IMMC_VIS_NONE [46; 76; 48];
   new_inst_immc IMMC_INST_LOAD (Some (new_signed_reg_immcope IMMC_SUFFIX_LONG 3)) (Some (new_mem_immcope 4)) None;
   new_inst_immc IMMC_INST_JLEQ (Some (new_label_immcope [46; 76; 50])) (Some (new_signed_reg_immcope IMMC_SUFFIX_LONG 3)) (Some (new_signed_int_immcope IMMC_SUFFIX_LONG IInt 0));
   new_inst_immc IMMC_INST_LOAD (Some (new_signed_reg_immcope IMMC_SUFFIX_LONG 4)) (Some (new_mem_immcope 4)) None;
   new_inst_immc IMMC_INST_STORE (Some (new_mem_immcope 8)) (Some (new_signed_reg_immcope IMMC_SUFFIX_LONG 4)) None;
   new_inst_immc IMMC_INST_JMP (Some (new_label_immcope [46; 76; 51])) None None;
   new_label_immc IMMC_LABEL_NORMAL IMMC_VIS_NONE [46; 76; 50];
   new_inst_immc IMMC_INST_LOAD (Some (new_signed_reg_immcope IMMC_SUFFIX_LONG 5)) (Some (new_signed_int_immcope IMMC_SUFFIX_LONG IInt 0)) None;
   new_inst_immc IMMC_INST_STORE (Some (new_mem_immcope 8)) (Some (new_signed_reg_immcope IMMC_SUFFIX_LONG 5)) None;
   new_label_immc IMMC_LABEL_NORMAL IMMC_VIS_NONE [46; 76; 51]].
Proof. vm_compute. reflexivity. Qed.
(** tests/immcgen/test_statement.c test_immcgen_switch_stmt_int *)
Definition test_immcgen_switch_stmt_int := stmt_test (new_srt SRT_SWITCH_STMT [(new_identifier_srt SRT_IDENT_EXPR DTYPE_INT [120]); (new_srt SRT_CMPD_STMT [(new_srt SRT_CASE_STMT [(new_iliteral_srt DTYPE_INT (new_signed IInt 0)); (new_srt SRT_EXPR_STMT [(new_dtyped_srt SRT_ASSIGN_EXPR DTYPE_INT [(new_dtyped_srt SRT_ADDR_EXPR (DTYPE_POINTER DTYPE_INT) [(new_identifier_srt SRT_IDENT_EXPR DTYPE_INT [121])]); (new_iliteral_srt DTYPE_INT (new_signed IInt 1))])])]); (new_srt SRT_BREAK_STMT []); (new_srt SRT_CASE_STMT [(new_iliteral_srt DTYPE_INT (new_signed IInt 1)); (new_srt SRT_EXPR_STMT [(new_dtyped_srt SRT_ASSIGN_EXPR DTYPE_INT [(new_dtyped_srt SRT_ADDR_EXPR (DTYPE_POINTER DTYPE_INT) [(new_identifier_srt SRT_IDENT_EXPR DTYPE_INT [121])]); (new_iliteral_srt DTYPE_INT (new_signed IInt 2))])])]); (new_srt SRT_BREAK_STMT []); (new_srt SRT_DEFAULT_STMT [(new_srt SRT_EXPR_STMT [(new_dtyped_srt SRT_ASSIGN_EXPR DTYPE_INT [(new_dtyped_srt SRT_ADDR_EXPR (DTYPE_POINTER DTYPE_INT) [(new_identifier_srt SRT_IDENT_EXPR DTYPE_INT [121])]); (new_iliteral_srt DTYPE_INT (new_signed IInt 9))])])]); (new_srt SRT_BREAK_STMT [])])]) (Some [(fun t => sym_define_memory t [120] DTYPE_INT); (fun t => sym_define_memory t [121] DTYPE_INT)]) (-1).
Example test_immcgen_switch_stmt_int_ok : test_immcgen_switch_stmt_int = Ok
  [new_inst_immc IMMC_INST_LOAD (Some (new_signed_reg_immcope IMMC_SUFFIX_LONG 0)) (Some (new_mem_immcope 4)) None;
   new_inst_immc IMMC_INST_JEQ (Some (new_label_immcope [46; 76; 49])) (Some (new_signed_reg_immcope IMMC_SUFFIX_LONG 0)) (Some (new_signed_int_immcope IMMC_SUFFIX_LONG IInt 0));
   new_inst_immc IMMC_INST_JEQ (Some (new_label_immcope [46; 76; 50])) (Some (new_signed_reg_immcope IMMC_SUFFIX_LONG 0)) (Some (new_signed_int_immcope IMMC_SUFFIX_LONG IInt 1));
   new_inst_immc IMMC_INST_JMP (Some (new_label_immcope [46; 76; 51])) None None;
   new_label_immc IMMC_LABEL_NORMAL IMMC_VIS_NONE [46; 76; 49];
   new_inst_immc IMMC_INST_LOAD (Some (new_signed_reg_immcope IMMC_SUFFIX_LONG 1)) (Some (new_signed_int_immcope IMMC_SUFFIX_LONG IInt 1)) None;
   new_inst_immc IMMC_INST_STORE (Some (new_mem_immcope 8)) (Some (new_signed_reg_immcope IMMC_SUFFIX_LONG 1)) None;
   new_inst_immc IMMC_INST_JMP (Some (new_label_immcope [46; 76; 48])) None None;
   new_label_immc IMMC_LABEL_NORMAL IMMC_VIS_NONE [46; 76; 50];
   new_inst_immc IMMC_INST_LOAD (Some (new_signed_reg_immcope IMMC_SUFFIX_LONG 2)) (Some (new_signed_int_immcope IMMC_SUFFIX_LONG IInt 2)) None;
   new_inst_immc IMMC_INST_STORE (Some (new_mem_immcope 8)) (Some (new_signed_reg_immcope IMMC_SUFFIX_LONG 2)) None;
   new_inst_immc IMMC_INST_JMP (Some (new_label_immcope [46; 76; 48])) None None;
   new_label_immc IMMC_LABEL_NORMAL IMMC_VIS_NONE [46; 76; 51];
   new_inst_immc IMMC_INST_LOAD (Some (new_signed_reg_immcope IMMC_SUFFIX_LONG 3)) (Some (new_signed_int_immcope IMMC_SUFFIX_LONG IInt 9)) None;
   new_inst_immc IMMC_INST_STORE (Some (new_mem_immcope 8)) (Some (new_signed_reg_immcope IMMC_SUFFIX_LONG 3)) None;
   new_inst_immc IMMC_INST_JMP (Some (new_label_immcope [46; 76; 48])) None None;
   new_label_immc IMMC_LABEL_NORMAL IMMC_VIS_NONE [46; 76; 48]].
Proof. vm_compute. reflexivity. Qed.
(** tests/immcgen/test_statement.c test_immcgen_switch_stmt_various_integer *)
Definition test_immcgen_switch_stmt_various_integer := stmt_test (new_srt SRT_SWITCH_STMT [(new_dtyped_srt SRT_CAST_EXPR DTYPE_INT [(new_identifier_srt SRT_IDENT_EXPR DTYPE_CHAR [120])]); (new_srt SRT_CMPD_STMT [(new_srt SRT_CASE_STMT [(new_iliteral_srt DTYPE_LONG (new_signed ILong 0)); (new_srt SRT_EXPR_STMT [(new_dtyped_srt SRT_ASSIGN_EXPR DTYPE_INT [(new_dtyped_srt SRT_ADDR_EXPR (DTYPE_POINTER DTYPE_INT) [(new_identifier_srt SRT_IDENT_EXPR DTYPE_INT [121])]); (new_iliteral_srt DTYPE_INT (new_signed IInt 1))])])]); (new_srt SRT_BREAK_STMT []); (new_srt SRT_DEFAULT_STMT [(new_srt SRT_EXPR_STMT [(new_dtyped_srt SRT_ASSIGN_EXPR DTYPE_INT [(new_dtyped_srt SRT_ADDR_EXPR (DTYPE_POINTER DTYPE_INT) [(new_identifier_srt SRT_IDENT_EXPR DTYPE_INT [121])]); (new_iliteral_srt DTYPE_INT (new_signed IInt 9))])])]); (new_srt SRT_BREAK_STMT []); (new_srt SRT_CASE_STMT [(new_iliteral_srt DTYPE_LONGLONG (new_signed ILongLong 1)); (new_srt SRT_EXPR_STMT [(new_dtyped_srt SRT_ASSIGN_EXPR DTYPE_INT [(new_dtyped_srt SRT_ADDR_EXPR (DTYPE_POINTER DTYPE_INT) [(new_identifier_srt SRT_IDENT_EXPR DTYPE_INT [121])]); (new_iliteral_srt DTYPE_INT (new_signed IInt 2))])])]); (new_srt SRT_BREAK_STMT []); (new_srt SRT_CASE_STMT [(new_iliteral_srt DTYPE_INT (new_signed IInt 2)); (new_srt SRT_EXPR_STMT [(new_dtyped_srt SRT_ASSIGN_EXPR DTYPE_INT [(new_dtyped_srt SRT_ADDR_EXPR (DTYPE_POINTER DTYPE_INT) [(new_identifier_srt SRT_IDENT_EXPR DTYPE_INT [121])]); (new_iliteral_srt DTYPE_INT (new_signed IInt 3))])])]); (new_srt SRT_BREAK_STMT [])])]) (Some [(fun t => sym_define_memory t [120] DTYPE_CHAR); (fun t => sym_define_memory t [121] DTYPE_INT)]) (-1).
Example test_immcgen_switch_stmt_various_integer_ok : test_immcgen_switch_stmt_various_integer = Ok
  [new_inst_immc IMMC_INST_LOAD (Some (new_signed_reg_immcope IMMC_SUFFIX_BYTE 0)) (Some (new_mem_immcope 4)) None;
   new_inst_immc IMMC_INST_LOAD (Some (new_signed_reg_immcope IMMC_SUFFIX_LONG 1)) (Some (new_signed_reg_immcope IMMC_SUFFIX_BYTE 0)) None;
   new_inst_immc IMMC_INST_JEQ (Some (new_label_immcope [46; 76; 49])) (Some (new_signed_reg_immcope IMMC_SUFFIX_LONG 1)) (Some (new_signed_int_immcope IMMC_SUFFIX_QUAD ILong 0));
   new_inst_immc IMMC_INST_JEQ (Some (new_label_immcope [46; 76; 51])) (Some (new_signed_reg_immcope IMMC_SUFFIX_LONG 1)) (Some (new_signed_int_immcope IMMC_SUFFIX_QUAD ILongLong 1));
   new_inst_immc IMMC_INST_JEQ (Some (new_label_immcope [46; 76; 52])) (Some (new_signed_reg_immcope IMMC_SUFFIX_LONG 1)) (Some (new_signed_int_immcope IMMC_SUFFIX_LONG IInt 2));
   new_inst_immc IMMC_INST_JMP (Some (new_label_immcope [46; 76; 50])) None None;
   new_label_immc IMMC_LABEL_NORMAL IMMC_VIS_NONE [46; 76; 49];
   new_inst_immc IMMC_INST_LOAD (Some (new_signed_reg_immcope IMMC_SUFFIX_LONG 2)) (Some (new_signed_int_immcope IMMC_SUFFIX_LONG IInt 1)) None;
   new_inst_immc IMMC_INST_STORE (Some (new_mem_immcope 8)) (Some (new_signed_reg_immcope IMMC_SUFFIX_LONG 2)) None;
   new_inst_immc IMMC_INST_JMP (Some (new_label_immcope [46; 76; 48])) None None;
   new_label_immc IMMC_LABEL_NORMAL IMMC_VIS_NONE [46; 76; 50];
   new_inst_immc IMMC_INST_LOAD (Some (new_signed_reg_immcope IMMC_SUFFIX_LONG 3)) (Some (new_signed_int_immcope IMMC_SUFFIX_LONG IInt 9)) None;
   new_inst_immc IMMC_INST_STORE (Some (new_mem_immcope 8)) (Some (new_signed_reg_immcope IMMC_SUFFIX_LONG 3)) None;
   new_inst_immc IMMC_INST_JMP (Some (new_label_immcope [46; 76; 48])) None None;
   new_label_immc IMMC_LABEL_NORMAL IMMC_VIS_NONE [46; 76; 51];
   new_inst_immc IMMC_INST_LOAD (Some (new_signed_reg_immcope IMMC_SUFFIX_LONG 4)) (Some (new_signed_int_immcope IMMC_SUFFIX_LONG IInt 2)) None;
   new_inst_immc IMMC_INST_STORE (Some (new_mem_immcope 8)) (Some (new_signed_reg_immcope IMMC_SUFFIX_LONG 4)) None;
   new_inst_immc IMMC_INST_JMP (Some (new_label_immcope [46; 76; 48])) None None;
   new_label_immc IMMC_LABEL_NORMAL IMMC_VIS_NONE [46; 76; 52];
   new_inst_immc IMMC_INST_LOAD (Some (new_signed_reg_immcope IMMC_SUFFIX_LONG 5)) (Some (new_signed_int_immcope IMMC_SUFFIX_LONG IInt 3)) None;
   new_inst_immc IMMC_INST_STORE (Some (new_mem_immcope 8)) (Some (new_signed_reg_immcope IMMC_SUFFIX_LONG 5)) None;
   new_inst_immc IMMC_INST_JMP (Some (new_label_immcope [46; 76; 48])) None None;
   new_label_immc IMMC_LABEL_NORMAL IMMC_VIS_NONE [46; 76; 48]].
Proof. vm_compute. reflexivity. Qed.
(** tests/immcgen/test_statement.c test_immcgen_while_stmt *)
Definition test_immcgen_while_stmt := stmt_test (new_srt SRT_WHILE_STMT [(new_dtyped_srt SRT_LESS_EXPR DTYPE_INT [(new_identifier_srt SRT_IDENT_EXPR DTYPE_INT [120]); (new_iliteral_srt DTYPE_INT (new_signed IInt 10))]); (new_srt SRT_CMPD_STMT [(new_srt SRT_EXPR_STMT [(new_dtyped_srt SRT_ASSIGN_EXPR DTYPE_INT [(new_dtyped_srt SRT_ADDR_EXPR (DTYPE_POINTER DTYPE_INT) [(new_identifier_srt SRT_IDENT_EXPR DTYPE_INT [120])]); (new_dtyped_srt SRT_ADD_EXPR DTYPE_INT [(new_identifier_srt SRT_IDENT_EXPR DTYPE_INT [120]); (new_iliteral_srt DTYPE_INT (new_signed IInt 1))])])]); (new_srt SRT_EXPR_STMT [(new_dtyped_srt SRT_ASSIGN_EXPR DTYPE_INT [(new_dtyped_srt SRT_ADDR_EXPR (DTYPE_POINTER DTYPE_INT) [(new_identifier_srt SRT_IDENT_EXPR DTYPE_INT [121])]); (new_dtyped_srt SRT_MUL_EXPR DTYPE_INT [(new_iliteral_srt DTYPE_INT (new_signed IInt 2)); (new_identifier_srt SRT_IDENT_EXPR DTYPE_INT [121])])])])])]) (Some [(fun t => sym_define_memory t [120] DTYPE_INT); (fun t => sym_define_memory t [121] DTYPE_INT)]) (-1).
Example test_immcgen_while_stmt_ok : test_immcgen_while_stmt = Ok
  [new_label_immc IMMC_LABEL_NORMAL IMMC_VIS_NONE [46; 76; 48];
   new_inst_immc IMMC_INST_LOAD (Some (new_signed_reg_immcope IMMC_SUFFIX_LONG 0)) (Some (new_mem_immcope 4)) None;
   new_inst_immc IMMC_INST_JGEQ (Some (new_label_immcope [46; 76; 49])) (Some (new_signed_reg_immcope IMMC_SUFFIX_LONG 0)) (Some (new_signed_int_immcope IMMC_SUFFIX_LONG IInt 10));
   new_inst_immc IMMC_INST_LOAD (Some (new_signed_reg_immcope IMMC_SUFFIX_LONG 1)) (Some (new_mem_immcope 4)) None;
   new_inst_immc IMMC_INST_ADD (Some (new_signed_reg_immcope IMMC_SUFFIX_LONG 2)) (Some (new_signed_reg_immcope IMMC_SUFFIX_LONG 1)) (Some (new_signed_int_immcope IMMC_SUFFIX_LONG IInt 1));
   new_inst_immc IMMC_INST_STORE (Some (new_mem_immcope 4)) (Some (new_signed_reg_immcope IMMC_SUFFIX_LONG 2)) None;
   new_inst_immc IMMC_INST_LOAD (Some (new_signed_reg_immcope IMMC_SUFFIX_LONG 3)) (Some (new_signed_int_immcope IMMC_SUFFIX_LONG IInt 2)) None;
   new_inst_immc IMMC_INST_LOAD (Some (new_signed_reg_immcope IMMC_SUFFIX_LONG 4)) (Some (new_mem_immcope 8)) None;
   new_inst_immc IMMC_INST_MUL (Some (new_signed_reg_immcope IMMC_SUFFIX_LONG 5)) (Some (new_signed_reg_immcope IMMC_SUFFIX_LONG 3)) (Some (new_signed_reg_immcope IMMC_SUFFIX_LONG 4));
   new_inst_immc IMMC_INST_STORE (Some (new_mem_immcope 8)) (Some (new_signed_reg_immcope IMMC_SUFFIX_LONG 5)) None;
   new_inst_immc IMMC_INST_JMP (Some (new_label_immcope [46; 76; 48])) None None;
   new_label_immc IMMC_LABEL_NORMAL IMMC_VIS_NONE [46; 76; 49]].
Proof. vm_compute. reflexivity. Qed.
(** tests/immcgen/test_statement.c test_immcgen_for_stmt_init_declaration *)
Definition test_immcgen_for_stmt_init_declaration := stmt_test (new_srt SRT_FOR_STMT [(new_srt SRT_DECL_LIST [(new_srt SRT_INIT_DECL [(new_identifier_srt SRT_IDENT_DECL DTYPE_INT [105]); (new_srt SRT_INIT [(new_iliteral_srt DTYPE_INT (new_signed IInt 0))])])]); (new_srt SRT_EXPR_STMT [(new_dtyped_srt SRT_LESS_EXPR DTYPE_INT [(new_identifier_srt SRT_IDENT_EXPR DTYPE_INT [105]); (new_iliteral_srt DTYPE_INT (new_signed IInt 10))])]); (new_srt SRT_EXPR_STMT [(new_dtyped_srt SRT_POSTINC_EXPR DTYPE_INT [(new_dtyped_srt SRT_ADDR_EXPR (DTYPE_POINTER DTYPE_INT) [(new_identifier_srt SRT_IDENT_EXPR DTYPE_INT [105])])])]); (new_srt SRT_CMPD_STMT [(new_srt SRT_EXPR_STMT [(new_dtyped_srt SRT_ASSIGN_EXPR DTYPE_INT [(new_dtyped_srt SRT_ADDR_EXPR (DTYPE_POINTER DTYPE_INT) [(new_identifier_srt SRT_IDENT_EXPR DTYPE_INT [120])]); (new_dtyped_srt SRT_MUL_EXPR DTYPE_INT [(new_identifier_srt SRT_IDENT_EXPR DTYPE_INT [120]); (new_iliteral_srt DTYPE_INT (new_signed IInt 2))])])])])]) (Some [(fun t => sym_define_memory t [120] DTYPE_INT)]) (-1).
Example test_immcgen_for_stmt_init_declaration_ok : test_immcgen_for_stmt_init_declaration = Ok
  [new_inst_immc IMMC_INST_STORE (Some (new_mem_immcope 8)) (Some (new_signed_int_immcope IMMC_SUFFIX_LONG IInt 0)) None;
   new_label_immc IMMC_LABEL_NORMAL IMMC_VIS_NONE [46; 76; 48];
   new_inst_immc IMMC_INST_LOAD (Some (new_signed_reg_immcope IMMC_SUFFIX_LONG 0)) (Some (new_mem_immcope 8)) None;
   new_inst_immc IMMC_INST_JGEQ (Some (new_label_immcope [46; 76; 50])) (Some (new_signed_reg_immcope IMMC_SUFFIX_LONG 0)) (Some (new_signed_int_immcope IMMC_SUFFIX_LONG IInt 10));
   new_inst_immc IMMC_INST_LOAD (Some (new_signed_reg_immcope IMMC_SUFFIX_LONG 1)) (Some (new_mem_immcope 4)) None;
   new_inst_immc IMMC_INST_MUL (Some (new_signed_reg_immcope IMMC_SUFFIX_LONG 2)) (Some (new_signed_reg_immcope IMMC_SUFFIX_LONG 1)) (Some (new_signed_int_immcope IMMC_SUFFIX_LONG IInt 2));
   new_inst_immc IMMC_INST_STORE (Some (new_mem_immcope 4)) (Some (new_signed_reg_immcope IMMC_SUFFIX_LONG 2)) None;
   new_label_immc IMMC_LABEL_NORMAL IMMC_VIS_NONE [46; 76; 49];
   new_inst_immc IMMC_INST_LOAD (Some (new_signed_reg_immcope IMMC_SUFFIX_LONG 3)) (Some (new_mem_immcope 8)) None;
   new_inst_immc IMMC_INST_LOAD (Some (new_signed_reg_immcope IMMC_SUFFIX_LONG 4)) (Some (new_signed_reg_immcope IMMC_SUFFIX_LONG 3)) None;
   new_inst_immc IMMC_INST_ADD (Some (new_signed_reg_immcope IMMC_SUFFIX_LONG 3)) (Some (new_signed_reg_immcope IMMC_SUFFIX_LONG 3)) (Some (new_signed_int_immcope IMMC_SUFFIX_LONG IInt 1));
   new_inst_immc IMMC_INST_STORE (Some (new_mem_immcope 8)) (Some (new_signed_reg_immcope IMMC_SUFFIX_LONG 3)) None;
   new_inst_immc IMMC_INST_JMP (Some (new_label_immcope [46; 76; 48])) None None;
   new_label_immc IMMC_LABEL_NORMAL IMMC_VIS_NONE [46; 76; 50]].
Proof. vm_compute. reflexivity. Qed.
(** tests/immcgen/test_statement.c test_immcgen_for_stmt_init_expression *)
Definition test_immcgen_for_stmt_init_expression := stmt_test (new_srt SRT_FOR_STMT [(new_srt SRT_EXPR_STMT [(new_dtyped_srt SRT_ASSIGN_EXPR DTYPE_INT [(new_dtyped_srt SRT_ADDR_EXPR (DTYPE_POINTER DTYPE_INT) [(new_identifier_srt SRT_IDENT_EXPR DTYPE_INT [105])]); (new_identifier_srt SRT_IDENT_EXPR DTYPE_INT [110])])]); (new_srt SRT_EXPR_STMT [(new_dtyped_srt SRT_GREATER_EXPR DTYPE_INT [(new_identifier_srt SRT_IDENT_EXPR DTYPE_INT [105]); (new_iliteral_srt DTYPE_INT (new_signed IInt 0))])]); (new_srt SRT_EXPR_STMT [(new_dtyped_srt SRT_POSTDEC_EXPR DTYPE_INT [(new_dtyped_srt SRT_ADDR_EXPR (DTYPE_POINTER DTYPE_INT) [(new_identifier_srt SRT_IDENT_EXPR DTYPE_INT [105])])])]); (new_srt SRT_CMPD_STMT [(new_srt SRT_EXPR_STMT [(new_dtyped_srt SRT_ASSIGN_EXPR DTYPE_INT [(new_dtyped_srt SRT_ADDR_EXPR (DTYPE_POINTER DTYPE_INT) [(new_identifier_srt SRT_IDENT_EXPR DTYPE_INT [120])]); (new_dtyped_srt SRT_DIV_EXPR DTYPE_INT [(new_identifier_srt SRT_IDENT_EXPR DTYPE_INT [120]); (new_iliteral_srt DTYPE_INT (new_signed IInt 2))])])])])]) (Some [(fun t => sym_define_memory t [105] DTYPE_INT); (fun t => sym_define_memory t [110] DTYPE_INT); (fun t => sym_define_memory t [120] DTYPE_INT)]) (-1).
Example test_immcgen_for_stmt_init_expression_ok : test_immcgen_for_stmt_init_expression = Ok
  [new_inst_immc IMMC_INST_LOAD (Some (new_signed_reg_immcope IMMC_SUFFIX_LONG 0)) (Some (new_mem_immcope 8)) None;
   new_inst_immc IMMC_INST_STORE (Some (new_mem_immcope 4)) (Some (new_signed_reg_immcope IMMC_SUFFIX_LONG 0)) None;
   new_label_immc IMMC_LABEL_NORMAL IMMC_VIS_NONE [46; 76; 48];
   new_inst_immc IMMC_INST_LOAD (Some (new_signed_reg_immcope IMMC_SUFFIX_LONG 1)) (Some (new_mem_immcope 4)) None;
   new_inst_immc IMMC_INST_JLEQ (Some (new_label_immcope [46; 76; 50])) (Some (new_signed_reg_immcope IMMC_SUFFIX_LONG 1)) (Some (new_signed_int_immcope IMMC_SUFFIX_LONG IInt 0));
   new_inst_immc IMMC_INST_LOAD (Some (new_signed_reg_immcope IMMC_SUFFIX_LONG 2)) (Some (new_mem_immcope 12)) None;
   new_inst_immc IMMC_INST_DIV (Some (new_signed_reg_immcope IMMC_SUFFIX_LONG 3)) (Some (new_signed_reg_immcope IMMC_SUFFIX_LONG 2)) (Some (new_signed_int_immcope IMMC_SUFFIX_LONG IInt 2));
   new_inst_immc IMMC_INST_STORE (Some (new_mem_immcope 12)) (Some (new_signed_reg_immcope IMMC_SUFFIX_LONG 3)) None;
   new_label_immc IMMC_LABEL_NORMAL IMMC_VIS_NONE [46; 76; 49];
   new_inst_immc IMMC_INST_LOAD (Some (new_signed_reg_immcope IMMC_SUFFIX_LONG 4)) (Some (new_mem_immcope 4)) None;
   new_inst_immc IMMC_INST_LOAD (Some (new_signed_reg_immcope IMMC_SUFFIX_LONG 5)) (Some (new_signed_reg_immcope IMMC_SUFFIX_LONG 4)) None;
   new_inst_immc IMMC_INST_SUB (Some (new_signed_reg_immcope IMMC_SUFFIX_LONG 4)) (Some (new_signed_reg_immcope IMMC_SUFFIX_LONG 4)) (Some (new_signed_int_immcope IMMC_SUFFIX_LONG IInt 1));
   new_inst_immc IMMC_INST_STORE (Some (new_mem_immcope 4)) (Some (new_signed_reg_immcope IMMC_SUFFIX_LONG 4)) None;
   new_inst_immc IMMC_INST_JMP (Some (new_label_immcope [46; 76; 48])) None None;
   new_label_immc IMMC_LABEL_NORMAL IMMC_VIS_NONE [46; 76; 50]].
Proof. vm_compute. reflexivity. Qed.
(** tests/immcgen/test_statement.c test_immcgen_for_stmt_all_null *)
Definition test_immcgen_for_stmt_all_null := stmt_test (new_srt SRT_FOR_STMT [(new_srt SRT_NULL_STMT []); (new_srt SRT_NULL_STMT []); (new_srt SRT_NULL_STMT []); (new_srt SRT_CMPD_STMT [])]) None (-1).
Example test_immcgen_for_stmt_all_null_ok : test_immcgen_for_stmt_all_null = Ok
  [new_label_immc IMMC_LABEL_NORMAL IMMC_VIS_NONE [46; 76; 48];
   new_label_immc IMMC_LABEL_NORMAL IMMC_VIS_NONE [46; 76; 49];
   new_inst_immc IMMC_INST_JMP (Some (new_label_immcope [46; 76; 48])) None None;
   new_label_immc IMMC_LABEL_NORMAL IMMC_VIS_NONE [46; 76; 50]].
Proof. vm_compute. reflexivity. Qed.
(** tests/immcgen/test_external.c test_immcgen_transration_unit *)
Definition test_immcgen_transration_unit := immcgen (new_srt SRT_TRAS_UNIT [(new_srt SRT_DECL_LIST [(new_srt SRT_INIT_DECL [(new_identifier_srt SRT_IDENT_DECL (DTYPE_FUNCTION [(Some [120], DTYPE_INT)] DTYPE_INT) [105; 110; 99; 114; 105; 109; 101; 110; 116])])]); (new_srt SRT_FUNC_DEF [(new_identifier_srt SRT_IDENT_DECL (DTYPE_FUNCTION [(Some [120], DTYPE_INT)] DTYPE_INT) [100; 101; 99; 114; 105; 109; 101; 110; 116]); (new_srt SRT_CMPD_STMT [(new_srt SRT_RET_STMT [(new_dtyped_srt SRT_SUB_EXPR DTYPE_INT [(new_identifier_srt SRT_IDENT_EXPR DTYPE_INT [120]); (new_iliteral_srt DTYPE_INT (new_signed IInt 1))])])])]); (new_srt SRT_FUNC_DEF [(new_identifier_srt SRT_IDENT_DECL (DTYPE_FUNCTION [(Some [120], DTYPE_INT)] DTYPE_CHAR) [99; 97; 115; 116]); (new_srt SRT_CMPD_STMT [(new_srt SRT_RET_STMT [(new_dtyped_srt SRT_CAST_EXPR DTYPE_CHAR [(new_identifier_srt SRT_IDENT_EXPR DTYPE_INT [120])])])])])]).
Example test_immcgen_transration_unit_ok : test_immcgen_transration_unit = Ok
  [new_label_immc IMMC_LABEL_FUNCTION IMMC_VIS_GLOBAL [100; 101; 99; 114; 105; 109; 101; 110; 116];
   new_inst_immc IMMC_INST_ENTER None (Some (new_signed_int_immcope IMMC_SUFFIX_QUAD IInt 4)) None;
   new_inst_immc IMMC_INST_LDARG (Some (new_mem_immcope 4)) (Some (new_signed_arg_immcope IMMC_SUFFIX_LONG 0)) None;
   new_inst_immc IMMC_INST_LOAD (Some (new_signed_reg_immcope IMMC_SUFFIX_LONG 0)) (Some (new_mem_immcope 4)) None;
   new_inst_immc IMMC_INST_SUB (Some (new_signed_reg_immcope IMMC_SUFFIX_LONG 1)) (Some (new_signed_reg_immcope IMMC_SUFFIX_LONG 0)) (Some (new_signed_int_immcope IMMC_SUFFIX_LONG IInt 1));
   new_inst_immc IMMC_INST_STRET None (Some (new_signed_reg_immcope IMMC_SUFFIX_LONG 1)) None;
   new_inst_immc IMMC_INST_JMP (Some (new_label_immcope [46; 76; 48])) None None;
   new_label_immc IMMC_LABEL_NORMAL IMMC_VIS_NONE [46; 76; 48];
   new_inst_immc IMMC_INST_LEAVE None (Some (new_signed_int_immcope IMMC_SUFFIX_QUAD IInt 4)) None;
   new_label_immc IMMC_LABEL_FUNCTION IMMC_VIS_GLOBAL [99; 97; 115; 116];
   new_inst_immc IMMC_INST_ENTER None (Some (new_signed_int_immcope IMMC_SUFFIX_QUAD IInt 4)) None;
   new_inst_immc IMMC_INST_LDARG (Some (new_mem_immcope 4)) (Some (new_signed_arg_immcope IMMC_SUFFIX_LONG 0)) None;
   new_inst_immc IMMC_INST_LOAD (Some (new_signed_reg_immcope IMMC_SUFFIX_LONG 0)) (Some (new_mem_immcope 4)) None;
   new_inst_immc IMMC_INST_LOAD (Some (new_signed_reg_immcope IMMC_SUFFIX_BYTE 1)) (Some (new_signed_reg_immcope IMMC_SUFFIX_LONG 0)) None;
   new_inst_immc IMMC_INST_STRET None (Some (new_signed_reg_immcope IMMC_SUFFIX_BYTE 1)) None;
   new_inst_immc IMMC_INST_JMP (Some (new_label_immcope [46; 76; 49])) None None;
   new_label_immc IMMC_LABEL_NORMAL IMMC_VIS_NONE [46; 76; 49];
   new_inst_immc IMMC_INST_LEAVE None (Some (new_signed_int_immcope IMMC_SUFFIX_QUAD IInt 4)) None].
Proof. vm_compute. reflexivity. Qed.
