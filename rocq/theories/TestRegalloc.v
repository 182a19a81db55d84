(** The register allocator unit tests of /repo/tests/regalloc, read by tools/gen_tests.py and run on the model.
    These are tests of the model, not properties. *)
From Verif Require Import Base LiteralModel RegallocModel.
Open Scope Z_scope.

(** tests/regalloc/test_regalloc.c test_regalloc_empty_function *)
Definition test_regalloc_empty_function := allocate_regs 8 [new_label_immc IMMC_LABEL_FUNCTION IMMC_VIS_GLOBAL [101; 109; 112; 116; 121];
   new_inst_immc IMMC_INST_ENTER None (Some (new_signed_int_immcope IMMC_SUFFIX_QUAD IInt 4)) None;
   new_label_immc IMMC_LABEL_NORMAL IMMC_VIS_NONE [46; 76; 48];
   new_inst_immc IMMC_INST_LEAVE None (Some (new_signed_int_immcope IMMC_SUFFIX_QUAD IInt 4)) None].
Example test_regalloc_empty_function_ok : test_regalloc_empty_function = Ok
  ([new_label_immc IMMC_LABEL_FUNCTION IMMC_VIS_GLOBAL [101; 109; 112; 116; 121];
   new_inst_immc IMMC_INST_ENTER None (Some (new_signed_int_immcope IMMC_SUFFIX_QUAD IInt 4)) None;
   new_label_immc IMMC_LABEL_NORMAL IMMC_VIS_NONE [46; 76; 48];
   new_inst_immc IMMC_INST_LEAVE None (Some (new_signed_int_immcope IMMC_SUFFIX_QUAD IInt 4)) None], [mkls [] 0 (-1); mkls [] 0 (-1); mkls [] 0 (-1); mkls [] 0 (-1); mkls [] 0 (-1); mkls [] 0 (-1); mkls [] 0 (-1); mkls [] 0 (-1)]).
Proof. vm_compute. reflexivity. Qed.
(** tests/regalloc/test_regalloc.c test_regalloc_single_register *)
Definition test_regalloc_single_register := allocate_regs 8 [new_label_immc IMMC_LABEL_FUNCTION IMMC_VIS_GLOBAL [100; 101; 99; 114; 105; 109; 101; 110; 116];
   new_inst_immc IMMC_INST_ENTER None (Some (new_signed_int_immcope IMMC_SUFFIX_QUAD IInt 4)) None;
   new_inst_immc IMMC_INST_LDARG (Some (new_mem_immcope 4)) (Some (new_signed_arg_immcope IMMC_SUFFIX_LONG 0)) None;
   new_inst_immc IMMC_INST_LOAD (Some (new_signed_reg_immcope IMMC_SUFFIX_LONG 0)) (Some (new_mem_immcope 4)) None;
   new_inst_immc IMMC_INST_SUB (Some (new_signed_reg_immcope IMMC_SUFFIX_LONG 1)) (Some (new_signed_reg_immcope IMMC_SUFFIX_LONG 0)) (Some (new_signed_int_immcope IMMC_SUFFIX_LONG IInt 1));
   new_inst_immc IMMC_INST_STRET None (Some (new_signed_reg_immcope IMMC_SUFFIX_LONG 1)) None;
   new_inst_immc IMMC_INST_JMP (Some (new_label_immcope [46; 76; 48])) None None;
   new_label_immc IMMC_LABEL_NORMAL IMMC_VIS_NONE [46; 76; 48];
   new_inst_immc IMMC_INST_LEAVE None (Some (new_signed_int_immcope IMMC_SUFFIX_QUAD IInt 4)) None].
Example test_regalloc_single_register_ok : test_regalloc_single_register = Ok
  ([new_label_immc IMMC_LABEL_FUNCTION IMMC_VIS_GLOBAL [100; 101; 99; 114; 105; 109; 101; 110; 116];
   new_inst_immc IMMC_INST_ENTER None (Some (new_signed_int_immcope IMMC_SUFFIX_QUAD IInt 4)) None;
   new_inst_immc IMMC_INST_LDARG (Some (new_mem_immcope 4)) (Some (new_signed_arg_immcope IMMC_SUFFIX_LONG 0)) None;
   new_inst_immc IMMC_INST_LOAD (Some (new_signed_reg_immcope IMMC_SUFFIX_LONG 0)) (Some (new_mem_immcope 4)) None;
   new_inst_immc IMMC_INST_SUB (Some (new_signed_reg_immcope IMMC_SUFFIX_LONG 0)) (Some (new_signed_reg_immcope IMMC_SUFFIX_LONG 0)) (Some (new_signed_int_immcope IMMC_SUFFIX_LONG IInt 1));
   new_inst_immc IMMC_INST_STRET None (Some (new_signed_reg_immcope IMMC_SUFFIX_LONG 0)) None;
   new_inst_immc IMMC_INST_JMP (Some (new_label_immcope [46; 76; 48])) None None;
   new_label_immc IMMC_LABEL_NORMAL IMMC_VIS_NONE [46; 76; 48];
   new_inst_immc IMMC_INST_LEAVE None (Some (new_signed_int_immcope IMMC_SUFFIX_QUAD IInt 4)) None], [mkls [mklv 3 4; mklv 4 5] 0 (-1); mkls [] 0 (-1); mkls [] 0 (-1); mkls [] 0 (-1); mkls [] 0 (-1); mkls [] 0 (-1); mkls [] 0 (-1); mkls [] 0 (-1)]).
Proof. vm_compute. reflexivity. Qed.
(** tests/regalloc/test_regalloc.c test_regalloc_multiple_register *)
Definition test_regalloc_multiple_register := allocate_regs 8 [new_label_immc IMMC_LABEL_FUNCTION IMMC_VIS_GLOBAL [97; 100; 100];
   new_inst_immc IMMC_INST_ENTER None (Some (new_signed_int_immcope IMMC_SUFFIX_QUAD IInt 8)) None;
   new_inst_immc IMMC_INST_LDARG (Some (new_mem_immcope 4)) (Some (new_signed_arg_immcope IMMC_SUFFIX_LONG 0)) None;
   new_inst_immc IMMC_INST_LDARG (Some (new_mem_immcope 8)) (Some (new_signed_arg_immcope IMMC_SUFFIX_LONG 1)) None;
   new_inst_immc IMMC_INST_LOAD (Some (new_signed_reg_immcope IMMC_SUFFIX_LONG 0)) (Some (new_mem_immcope 4)) None;
   new_inst_immc IMMC_INST_LOAD (Some (new_signed_reg_immcope IMMC_SUFFIX_LONG 1)) (Some (new_mem_immcope 8)) None;
   new_inst_immc IMMC_INST_ADD (Some (new_signed_reg_immcope IMMC_SUFFIX_LONG 2)) (Some (new_signed_reg_immcope IMMC_SUFFIX_LONG 0)) (Some (new_signed_reg_immcope IMMC_SUFFIX_LONG 1));
   new_inst_immc IMMC_INST_STRET None (Some (new_signed_reg_immcope IMMC_SUFFIX_LONG 2)) None;
   new_inst_immc IMMC_INST_JMP (Some (new_label_immcope [46; 76; 48])) None None;
   new_label_immc IMMC_LABEL_NORMAL IMMC_VIS_NONE [46; 76; 48];
   new_inst_immc IMMC_INST_LEAVE None (Some (new_signed_int_immcope IMMC_SUFFIX_QUAD IInt 8)) None].
Example test_regalloc_multiple_register_ok : test_regalloc_multiple_register = Ok
  ([new_label_immc IMMC_LABEL_FUNCTION IMMC_VIS_GLOBAL [97; 100; 100];
   new_inst_immc IMMC_INST_ENTER None (Some (new_signed_int_immcope IMMC_SUFFIX_QUAD IInt 8)) None;
   new_inst_immc IMMC_INST_LDARG (Some (new_mem_immcope 4)) (Some (new_signed_arg_immcope IMMC_SUFFIX_LONG 0)) None;
   new_inst_immc IMMC_INST_LDARG (Some (new_mem_immcope 8)) (Some (new_signed_arg_immcope IMMC_SUFFIX_LONG 1)) None;
   new_inst_immc IMMC_INST_LOAD (Some (new_signed_reg_immcope IMMC_SUFFIX_LONG 0)) (Some (new_mem_immcope 4)) None;
   new_inst_immc IMMC_INST_LOAD (Some (new_signed_reg_immcope IMMC_SUFFIX_LONG 1)) (Some (new_mem_immcope 8)) None;
   new_inst_immc IMMC_INST_ADD (Some (new_signed_reg_immcope IMMC_SUFFIX_LONG 0)) (Some (new_signed_reg_immcope IMMC_SUFFIX_LONG 0)) (Some (new_signed_reg_immcope IMMC_SUFFIX_LONG 1));
   new_inst_immc IMMC_INST_STRET None (Some (new_signed_reg_immcope IMMC_SUFFIX_LONG 0)) None;
   new_inst_immc IMMC_INST_JMP (Some (new_label_immcope [46; 76; 48])) None None;
   new_label_immc IMMC_LABEL_NORMAL IMMC_VIS_NONE [46; 76; 48];
   new_inst_immc IMMC_INST_LEAVE None (Some (new_signed_int_immcope IMMC_SUFFIX_QUAD IInt 8)) None], [mkls [mklv 4 6; mklv 6 7] 0 (-1); mkls [mklv 5 6] 0 (-1); mkls [] 0 (-1); mkls [] 0 (-1); mkls [] 0 (-1); mkls [] 0 (-1); mkls [] 0 (-1); mkls [] 0 (-1)]).
Proof. vm_compute. reflexivity. Qed.
(** tests/regalloc/test_regalloc.c test_regalloc_longlife_register *)
Definition test_regalloc_longlife_register := allocate_regs 8 [new_label_immc IMMC_LABEL_FUNCTION IMMC_VIS_GLOBAL [117; 112; 100; 97; 116; 101; 95; 112; 116; 114];
   new_inst_immc IMMC_INST_ENTER None (Some (new_signed_int_immcope IMMC_SUFFIX_QUAD IInt 0)) None;
   new_inst_immc IMMC_INST_LOAD (Some (new_signed_reg_immcope IMMC_SUFFIX_LONG 0)) (Some (new_signed_int_immcope IMMC_SUFFIX_LONG IInt 3)) None;
   new_inst_immc IMMC_INST_LOAD (Some (new_signed_reg_immcope IMMC_SUFFIX_QUAD 1)) (Some (new_mem_immcope 16)) None;
   new_inst_immc IMMC_INST_STORE (Some (new_ptr_immcope 1)) (Some (new_signed_reg_immcope IMMC_SUFFIX_LONG 0)) None;
   new_inst_immc IMMC_INST_LOAD (Some (new_signed_reg_immcope IMMC_SUFFIX_QUAD 2)) (Some (new_mem_immcope 8)) None;
   new_inst_immc IMMC_INST_STORE (Some (new_ptr_immcope 2)) (Some (new_signed_reg_immcope IMMC_SUFFIX_LONG 0)) None;
   new_inst_immc IMMC_INST_STRET None (Some (new_signed_int_immcope IMMC_SUFFIX_LONG IInt 0)) None;
   new_inst_immc IMMC_INST_JMP (Some (new_label_immcope [46; 76; 48])) None None;
   new_label_immc IMMC_LABEL_NORMAL IMMC_VIS_NONE [46; 76; 48];
   new_inst_immc IMMC_INST_LEAVE None (Some (new_signed_int_immcope IMMC_SUFFIX_QUAD IInt 0)) None].
Example test_regalloc_longlife_register_ok : test_regalloc_longlife_register = Ok
  ([new_label_immc IMMC_LABEL_FUNCTION IMMC_VIS_GLOBAL [117; 112; 100; 97; 116; 101; 95; 112; 116; 114];
   new_inst_immc IMMC_INST_ENTER None (Some (new_signed_int_immcope IMMC_SUFFIX_QUAD IInt 0)) None;
   new_inst_immc IMMC_INST_LOAD (Some (new_signed_reg_immcope IMMC_SUFFIX_LONG 0)) (Some (new_signed_int_immcope IMMC_SUFFIX_LONG IInt 3)) None;
   new_inst_immc IMMC_INST_LOAD (Some (new_signed_reg_immcope IMMC_SUFFIX_QUAD 1)) (Some (new_mem_immcope 16)) None;
   new_inst_immc IMMC_INST_STORE (Some (new_ptr_immcope 1)) (Some (new_signed_reg_immcope IMMC_SUFFIX_LONG 0)) None;
   new_inst_immc IMMC_INST_LOAD (Some (new_signed_reg_immcope IMMC_SUFFIX_QUAD 1)) (Some (new_mem_immcope 8)) None;
   new_inst_immc IMMC_INST_STORE (Some (new_ptr_immcope 1)) (Some (new_signed_reg_immcope IMMC_SUFFIX_LONG 0)) None;
   new_inst_immc IMMC_INST_STRET None (Some (new_signed_int_immcope IMMC_SUFFIX_LONG IInt 0)) None;
   new_inst_immc IMMC_INST_JMP (Some (new_label_immcope [46; 76; 48])) None None;
   new_label_immc IMMC_LABEL_NORMAL IMMC_VIS_NONE [46; 76; 48];
   new_inst_immc IMMC_INST_LEAVE None (Some (new_signed_int_immcope IMMC_SUFFIX_QUAD IInt 0)) None], [mkls [mklv 2 6] 0 (-1); mkls [mklv 3 4; mklv 5 6] 0 (-1); mkls [] 0 (-1); mkls [] 0 (-1); mkls [] 0 (-1); mkls [] 0 (-1); mkls [] 0 (-1); mkls [] 0 (-1)]).
Proof. vm_compute. reflexivity. Qed.
(** tests/regalloc/test_regalloc.c test_regalloc_jump *)
Definition test_regalloc_jump := allocate_regs 8 [new_label_immc IMMC_LABEL_FUNCTION IMMC_VIS_GLOBAL [99; 104; 101; 99; 107; 95; 118; 97; 108; 105; 100; 97; 116; 101];
   new_inst_immc IMMC_INST_ENTER None (Some (new_signed_int_immcope IMMC_SUFFIX_QUAD IInt 0)) None;
   new_inst_immc IMMC_INST_LOAD (Some (new_signed_reg_immcope IMMC_SUFFIX_LONG 0)) (Some (new_mem_immcope 4)) None;
   new_inst_immc IMMC_INST_SETNEQ (Some (new_signed_reg_immcope IMMC_SUFFIX_LONG 1)) (Some (new_signed_reg_immcope IMMC_SUFFIX_LONG 0)) (Some (new_signed_int_immcope IMMC_SUFFIX_LONG IInt 0));
   new_inst_immc IMMC_INST_JEQ (Some (new_label_immcope [46; 76; 49])) (Some (new_signed_reg_immcope IMMC_SUFFIX_LONG 1)) (Some (new_signed_int_immcope IMMC_SUFFIX_LONG IInt 0));
   new_inst_immc IMMC_INST_PREP None (Some (new_signed_int_immcope IMMC_SUFFIX_NONE IInt 1)) None;
   new_inst_immc IMMC_INST_ADDR (Some (new_signed_reg_immcope IMMC_SUFFIX_QUAD 2)) (Some (new_mem_immcope 12)) None;
   new_inst_immc IMMC_INST_STARG (Some (new_signed_arg_immcope IMMC_SUFFIX_QUAD 0)) (Some (new_signed_reg_immcope IMMC_SUFFIX_QUAD 2)) None;
   new_inst_immc IMMC_INST_CALL (Some (new_signed_reg_immcope IMMC_SUFFIX_LONG 3)) (Some (new_label_immcope [118; 97; 108; 105; 100; 97; 116; 101])) (Some (new_signed_int_immcope IMMC_SUFFIX_NONE IInt 1));
   new_inst_immc IMMC_INST_CLEAN None (Some (new_signed_int_immcope IMMC_SUFFIX_NONE IInt 1)) None;
   new_inst_immc IMMC_INST_JEQ (Some (new_label_immcope [46; 76; 49])) (Some (new_signed_reg_immcope IMMC_SUFFIX_LONG 3)) (Some (new_signed_int_immcope IMMC_SUFFIX_LONG IInt 0));
   new_inst_immc IMMC_INST_LOAD (Some (new_signed_reg_immcope IMMC_SUFFIX_LONG 4)) (Some (new_signed_int_immcope IMMC_SUFFIX_LONG IInt 1)) None;
   new_inst_immc IMMC_INST_JMP (Some (new_label_immcope [46; 76; 50])) None None;
   new_label_immc IMMC_LABEL_NORMAL IMMC_VIS_NONE [46; 76; 49];
   new_inst_immc IMMC_INST_LOAD (Some (new_signed_reg_immcope IMMC_SUFFIX_LONG 4)) (Some (new_signed_int_immcope IMMC_SUFFIX_LONG IInt 0)) None;
   new_label_immc IMMC_LABEL_NORMAL IMMC_VIS_NONE [46; 76; 50];
   new_inst_immc IMMC_INST_STRET None (Some (new_signed_int_immcope IMMC_SUFFIX_LONG IInt 0)) None;
   new_inst_immc IMMC_INST_JMP (Some (new_label_immcope [46; 76; 48])) None None;
   new_label_immc IMMC_LABEL_NORMAL IMMC_VIS_NONE [46; 76; 48];
   new_inst_immc IMMC_INST_LEAVE None (Some (new_signed_int_immcope IMMC_SUFFIX_QUAD IInt 0)) None].
Example test_regalloc_jump_ok : test_regalloc_jump = Ok
  ([new_label_immc IMMC_LABEL_FUNCTION IMMC_VIS_GLOBAL [99; 104; 101; 99; 107; 95; 118; 97; 108; 105; 100; 97; 116; 101];
   new_inst_immc IMMC_INST_ENTER None (Some (new_signed_int_immcope IMMC_SUFFIX_QUAD IInt 0)) None;
   new_inst_immc IMMC_INST_LOAD (Some (new_signed_reg_immcope IMMC_SUFFIX_LONG 0)) (Some (new_mem_immcope 4)) None;
   new_inst_immc IMMC_INST_SETNEQ (Some (new_signed_reg_immcope IMMC_SUFFIX_LONG 0)) (Some (new_signed_reg_immcope IMMC_SUFFIX_LONG 0)) (Some (new_signed_int_immcope IMMC_SUFFIX_LONG IInt 0));
   new_inst_immc IMMC_INST_JEQ (Some (new_label_immcope [46; 76; 49])) (Some (new_signed_reg_immcope IMMC_SUFFIX_LONG 0)) (Some (new_signed_int_immcope IMMC_SUFFIX_LONG IInt 0));
   new_inst_immc IMMC_INST_PREP None (Some (new_signed_int_immcope IMMC_SUFFIX_NONE IInt 1)) None;
   new_inst_immc IMMC_INST_ADDR (Some (new_signed_reg_immcope IMMC_SUFFIX_QUAD 0)) (Some (new_mem_immcope 12)) None;
   new_inst_immc IMMC_INST_STARG (Some (new_signed_arg_immcope IMMC_SUFFIX_QUAD 0)) (Some (new_signed_reg_immcope IMMC_SUFFIX_QUAD 0)) None;
   new_inst_immc IMMC_INST_CALL (Some (new_signed_reg_immcope IMMC_SUFFIX_LONG 0)) (Some (new_label_immcope [118; 97; 108; 105; 100; 97; 116; 101])) (Some (new_signed_int_immcope IMMC_SUFFIX_NONE IInt 1));
   new_inst_immc IMMC_INST_CLEAN None (Some (new_signed_int_immcope IMMC_SUFFIX_NONE IInt 1)) None;
   new_inst_immc IMMC_INST_JEQ (Some (new_label_immcope [46; 76; 49])) (Some (new_signed_reg_immcope IMMC_SUFFIX_LONG 0)) (Some (new_signed_int_immcope IMMC_SUFFIX_LONG IInt 0));
   new_inst_immc IMMC_INST_LOAD (Some (new_signed_reg_immcope IMMC_SUFFIX_LONG 0)) (Some (new_signed_int_immcope IMMC_SUFFIX_LONG IInt 1)) None;
   new_inst_immc IMMC_INST_JMP (Some (new_label_immcope [46; 76; 50])) None None;
   new_label_immc IMMC_LABEL_NORMAL IMMC_VIS_NONE [46; 76; 49];
   new_inst_immc IMMC_INST_LOAD (Some (new_signed_reg_immcope IMMC_SUFFIX_LONG 0)) (Some (new_signed_int_immcope IMMC_SUFFIX_LONG IInt 0)) None;
   new_label_immc IMMC_LABEL_NORMAL IMMC_VIS_NONE [46; 76; 50];
   new_inst_immc IMMC_INST_STRET None (Some (new_signed_int_immcope IMMC_SUFFIX_LONG IInt 0)) None;
   new_inst_immc IMMC_INST_JMP (Some (new_label_immcope [46; 76; 48])) None None;
   new_label_immc IMMC_LABEL_NORMAL IMMC_VIS_NONE [46; 76; 48];
   new_inst_immc IMMC_INST_LEAVE None (Some (new_signed_int_immcope IMMC_SUFFIX_QUAD IInt 0)) None], [mkls [mklv 2 3; mklv 3 4; mklv 6 7; mklv 8 10; mklv 11 11] 0 (-1); mkls [] 0 (-1); mkls [] 0 (-1); mkls [] 0 (-1); mkls [] 0 (-1); mkls [] 0 (-1); mkls [] 0 (-1); mkls [] 0 (-1)]).
Proof. vm_compute. reflexivity. Qed.
(** tests/regalloc/test_regalloc.c test_regalloc_loop *)
Definition test_regalloc_loop := allocate_regs 8 [new_label_immc IMMC_LABEL_FUNCTION IMMC_VIS_GLOBAL [108; 111; 111; 112];
   new_inst_immc IMMC_INST_ENTER None (Some (new_signed_int_immcope IMMC_SUFFIX_QUAD IInt 8)) None;
   new_label_immc IMMC_LABEL_NORMAL IMMC_VIS_NONE [46; 76; 49];
   new_inst_immc IMMC_INST_LOAD (Some (new_signed_reg_immcope IMMC_SUFFIX_LONG 0)) (Some (new_mem_immcope 4)) None;
   new_inst_immc IMMC_INST_JGEQ (Some (new_label_immcope [46; 76; 50])) (Some (new_signed_reg_immcope IMMC_SUFFIX_LONG 0)) (Some (new_signed_int_immcope IMMC_SUFFIX_LONG IInt 10));
   new_inst_immc IMMC_INST_LOAD (Some (new_signed_reg_immcope IMMC_SUFFIX_LONG 1)) (Some (new_mem_immcope 4)) None;
   new_inst_immc IMMC_INST_ADD (Some (new_signed_reg_immcope IMMC_SUFFIX_LONG 2)) (Some (new_signed_reg_immcope IMMC_SUFFIX_LONG 1)) (Some (new_signed_int_immcope IMMC_SUFFIX_LONG IInt 1));
   new_inst_immc IMMC_INST_STORE (Some (new_mem_immcope 4)) (Some (new_signed_reg_immcope IMMC_SUFFIX_LONG 2)) None;
   new_inst_immc IMMC_INST_LOAD (Some (new_signed_reg_immcope IMMC_SUFFIX_LONG 3)) (Some (new_signed_int_immcope IMMC_SUFFIX_LONG IInt 2)) None;
   new_inst_immc IMMC_INST_LOAD (Some (new_signed_reg_immcope IMMC_SUFFIX_LONG 4)) (Some (new_mem_immcope 8)) None;
   new_inst_immc IMMC_INST_MUL (Some (new_signed_reg_immcope IMMC_SUFFIX_LONG 5)) (Some (new_signed_reg_immcope IMMC_SUFFIX_LONG 3)) (Some (new_signed_reg_immcope IMMC_SUFFIX_LONG 4));
   new_inst_immc IMMC_INST_STORE (Some (new_mem_immcope 8)) (Some (new_signed_reg_immcope IMMC_SUFFIX_LONG 5)) None;
   new_inst_immc IMMC_INST_JMP (Some (new_label_immcope [46; 76; 49])) None None;
   new_label_immc IMMC_LABEL_NORMAL IMMC_VIS_NONE [46; 76; 50];
   new_label_immc IMMC_LABEL_NORMAL IMMC_VIS_NONE [46; 76; 48];
   new_inst_immc IMMC_INST_LEAVE None (Some (new_signed_int_immcope IMMC_SUFFIX_QUAD IInt 8)) None].
Example test_regalloc_loop_ok : test_regalloc_loop = Ok
  ([new_label_immc IMMC_LABEL_FUNCTION IMMC_VIS_GLOBAL [108; 111; 111; 112];
   new_inst_immc IMMC_INST_ENTER None (Some (new_signed_int_immcope IMMC_SUFFIX_QUAD IInt 8)) None;
   new_label_immc IMMC_LABEL_NORMAL IMMC_VIS_NONE [46; 76; 49];
   new_inst_immc IMMC_INST_LOAD (Some (new_signed_reg_immcope IMMC_SUFFIX_LONG 0)) (Some (new_mem_immcope 4)) None;
   new_inst_immc IMMC_INST_JGEQ (Some (new_label_immcope [46; 76; 50])) (Some (new_signed_reg_immcope IMMC_SUFFIX_LONG 0)) (Some (new_signed_int_immcope IMMC_SUFFIX_LONG IInt 10));
   new_inst_immc IMMC_INST_LOAD (Some (new_signed_reg_immcope IMMC_SUFFIX_LONG 0)) (Some (new_mem_immcope 4)) None;
   new_inst_immc IMMC_INST_ADD (Some (new_signed_reg_immcope IMMC_SUFFIX_LONG 0)) (Some (new_signed_reg_immcope IMMC_SUFFIX_LONG 0)) (Some (new_signed_int_immcope IMMC_SUFFIX_LONG IInt 1));
   new_inst_immc IMMC_INST_STORE (Some (new_mem_immcope 4)) (Some (new_signed_reg_immcope IMMC_SUFFIX_LONG 0)) None;
   new_inst_immc IMMC_INST_LOAD (Some (new_signed_reg_immcope IMMC_SUFFIX_LONG 0)) (Some (new_signed_int_immcope IMMC_SUFFIX_LONG IInt 2)) None;
   new_inst_immc IMMC_INST_LOAD (Some (new_signed_reg_immcope IMMC_SUFFIX_LONG 1)) (Some (new_mem_immcope 8)) None;
   new_inst_immc IMMC_INST_MUL (Some (new_signed_reg_immcope IMMC_SUFFIX_LONG 0)) (Some (new_signed_reg_immcope IMMC_SUFFIX_LONG 0)) (Some (new_signed_reg_immcope IMMC_SUFFIX_LONG 1));
   new_inst_immc IMMC_INST_STORE (Some (new_mem_immcope 8)) (Some (new_signed_reg_immcope IMMC_SUFFIX_LONG 0)) None;
   new_inst_immc IMMC_INST_JMP (Some (new_label_immcope [46; 76; 49])) None None;
   new_label_immc IMMC_LABEL_NORMAL IMMC_VIS_NONE [46; 76; 50];
   new_label_immc IMMC_LABEL_NORMAL IMMC_VIS_NONE [46; 76; 48];
   new_inst_immc IMMC_INST_LEAVE None (Some (new_signed_int_immcope IMMC_SUFFIX_QUAD IInt 8)) None], [mkls [mklv 3 4; mklv 5 6; mklv 6 7; mklv 8 10; mklv 10 11] 0 (-1); mkls [mklv 9 10] 0 (-1); mkls [] 0 (-1); mkls [] 0 (-1); mkls [] 0 (-1); mkls [] 0 (-1); mkls [] 0 (-1); mkls [] 0 (-1)]).
Proof. vm_compute. reflexivity. Qed.
(** tests/regalloc/test_regalloc.c test_regalloc_global_variable *)
Definition test_regalloc_global_variable := allocate_regs 8 [new_label_immc IMMC_LABEL_VARIABLE IMMC_VIS_GLOBAL [97];
   new_int_data_immc IMMC_DATA_LONG (new_signed IInt 1);
   new_int_data_immc IMMC_DATA_LONG (new_signed IInt 2);
   new_label_immc IMMC_LABEL_VARIABLE IMMC_VIS_GLOBAL [98];
   new_int_data_immc IMMC_DATA_LONG (new_signed IInt 6);
   new_int_data_immc IMMC_DATA_LONG (new_signed IInt 7);
   new_int_data_immc IMMC_DATA_LONG (new_signed IInt 8);
   new_int_data_immc IMMC_DATA_LONG (new_signed IInt 0);
   new_int_data_immc IMMC_DATA_LONG (new_signed IInt 0);
   new_int_data_immc IMMC_DATA_LONG (new_signed IInt 0)].
Example test_regalloc_global_variable_ok : test_regalloc_global_variable = Ok
  ([new_label_immc IMMC_LABEL_VARIABLE IMMC_VIS_GLOBAL [97];
   new_int_data_immc IMMC_DATA_LONG (new_signed IInt 1);
   new_int_data_immc IMMC_DATA_LONG (new_signed IInt 2);
   new_label_immc IMMC_LABEL_VARIABLE IMMC_VIS_GLOBAL [98];
   new_int_data_immc IMMC_DATA_LONG (new_signed IInt 6);
   new_int_data_immc IMMC_DATA_LONG (new_signed IInt 7);
   new_int_data_immc IMMC_DATA_LONG (new_signed IInt 8);
   new_int_data_immc IMMC_DATA_LONG (new_signed IInt 0);
   new_int_data_immc IMMC_DATA_LONG (new_signed IInt 0);
   new_int_data_immc IMMC_DATA_LONG (new_signed IInt 0)], [mkls [] 0 (-1); mkls [] 0 (-1); mkls [] 0 (-1); mkls [] 0 (-1); mkls [] 0 (-1); mkls [] 0 (-1); mkls [] 0 (-1); mkls [] 0 (-1)]).
Proof. vm_compute. reflexivity. Qed.
(** tests/regalloc/test_regalloc.c test_regalloc_function_variable_mixed *)
Definition test_regalloc_function_variable_mixed := allocate_regs 8 [new_label_immc IMMC_LABEL_VARIABLE IMMC_VIS_GLOBAL [99; 111; 117; 110; 116];
   new_int_data_immc IMMC_DATA_LONG (new_signed IInt 1);
   new_label_immc IMMC_LABEL_FUNCTION IMMC_VIS_GLOBAL [99; 111; 117; 110; 116; 117; 112];
   new_inst_immc IMMC_INST_ENTER None (Some (new_signed_int_immcope IMMC_SUFFIX_QUAD IInt 0)) None;
   new_inst_immc IMMC_INST_LOAD (Some (new_signed_reg_immcope IMMC_SUFFIX_LONG 0)) (Some (new_label_immcope [99; 111; 117; 110; 116])) None;
   new_inst_immc IMMC_INST_ADD (Some (new_signed_reg_immcope IMMC_SUFFIX_LONG 1)) (Some (new_signed_reg_immcope IMMC_SUFFIX_LONG 0)) (Some (new_signed_int_immcope IMMC_SUFFIX_LONG IInt 1));
   new_inst_immc IMMC_INST_STORE (Some (new_label_immcope [99; 111; 117; 110; 116])) (Some (new_signed_reg_immcope IMMC_SUFFIX_LONG 1)) None;
   new_inst_immc IMMC_INST_JMP (Some (new_label_immcope [46; 76; 48])) None None;
   new_label_immc IMMC_LABEL_NORMAL IMMC_VIS_NONE [46; 76; 48];
   new_inst_immc IMMC_INST_LEAVE None (Some (new_signed_int_immcope IMMC_SUFFIX_QUAD IInt 0)) None].
Example test_regalloc_function_variable_mixed_ok : test_regalloc_function_variable_mixed = Ok
  ([new_label_immc IMMC_LABEL_VARIABLE IMMC_VIS_GLOBAL [99; 111; 117; 110; 116];
   new_int_data_immc IMMC_DATA_LONG (new_signed IInt 1);
   new_label_immc IMMC_LABEL_FUNCTION IMMC_VIS_GLOBAL [99; 111; 117; 110; 116; 117; 112];
   new_inst_immc IMMC_INST_ENTER None (Some (new_signed_int_immcope IMMC_SUFFIX_QUAD IInt 0)) None;
   new_inst_immc IMMC_INST_LOAD (Some (new_signed_reg_immcope IMMC_SUFFIX_LONG 0)) (Some (new_label_immcope [99; 111; 117; 110; 116])) None;
   new_inst_immc IMMC_INST_ADD (Some (new_signed_reg_immcope IMMC_SUFFIX_LONG 0)) (Some (new_signed_reg_immcope IMMC_SUFFIX_LONG 0)) (Some (new_signed_int_immcope IMMC_SUFFIX_LONG IInt 1));
   new_inst_immc IMMC_INST_STORE (Some (new_label_immcope [99; 111; 117; 110; 116])) (Some (new_signed_reg_immcope IMMC_SUFFIX_LONG 0)) None;
   new_inst_immc IMMC_INST_JMP (Some (new_label_immcope [46; 76; 48])) None None;
   new_label_immc IMMC_LABEL_NORMAL IMMC_VIS_NONE [46; 76; 48];
   new_inst_immc IMMC_INST_LEAVE None (Some (new_signed_int_immcope IMMC_SUFFIX_QUAD IInt 0)) None], [mkls [mklv 4 5; mklv 5 6] 0 (-1); mkls [] 0 (-1); mkls [] 0 (-1); mkls [] 0 (-1); mkls [] 0 (-1); mkls [] 0 (-1); mkls [] 0 (-1); mkls [] 0 (-1)]).
Proof. vm_compute. reflexivity. Qed.
