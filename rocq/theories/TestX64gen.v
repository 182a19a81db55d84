(** The assembly generator unit tests of /repo/tests/x64gen, read by tools/gen_tests.py and run on the model.
    These are tests of the model, not properties. *)
From Verif Require Import Base LiteralModel X64genModel.
Open Scope Z_scope.

(** run_..._x64gen_test: gen_inst_x64code for each instruction *)
Fixpoint insts (l : list immc) (st : xst) : res (list x64) :=
  match l with
  | [] => Ok []
  | c :: r => do (cs, st) <- gen_inst_x64code c st; do ds <- insts r st; Ok (cs ++ ds)
  end.
Definition inst_test l lives := insts l (mkxst lives 0).
Definition one_test (gen : immc -> xst -> xres) (l : list immc) : res (list x64) :=
  match l with c :: _ => do (cs, _) <- gen c (mkxst (repeat new_liveseq 8) 0); Ok cs | [] => UB end.

(** tests/x64gen/test_arithinst.c test_x64gen_add_reg_int *)
Definition test_x64gen_add_reg_int := inst_test [new_inst_immc IMMC_INST_LOAD (Some (new_signed_reg_immcope IMMC_SUFFIX_LONG 0)) (Some (new_mem_immcope 4)) None;
   new_inst_immc IMMC_INST_ADD (Some (new_signed_reg_immcope IMMC_SUFFIX_LONG 0)) (Some (new_signed_reg_immcope IMMC_SUFFIX_LONG 0)) (Some (new_signed_int_immcope IMMC_SUFFIX_LONG IInt 2))] [mkls [mklv 0 1; mklv 1 2] 0 (-1); mkls [] 0 (-1); mkls [] 0 (-1); mkls [] 0 (-1); mkls [] 0 (-1); mkls [] 0 (-1); mkls [] 0 (-1); mkls [] 0 (-1)].
Example test_x64gen_add_reg_int_ok : test_x64gen_add_reg_int = Ok
  [new_inst_x64 X64_INST_MOVX (Some (new_mem_x64ope 4)) (Some (new_reg_x64ope X64_SUFFIX_LONG CX_REG_ID));
   new_inst_x64 X64_INST_ADDX (Some (new_signed_int_x64ope X64_SUFFIX_LONG IInt 2)) (Some (new_reg_x64ope X64_SUFFIX_LONG CX_REG_ID))].
Proof. vm_compute. reflexivity. Qed.
(** tests/x64gen/test_arithinst.c test_x64gen_add_reg_reg *)
Definition test_x64gen_add_reg_reg := inst_test [new_inst_immc IMMC_INST_LOAD (Some (new_signed_reg_immcope IMMC_SUFFIX_QUAD 0)) (Some (new_mem_immcope 8)) None;
   new_inst_immc IMMC_INST_LOAD (Some (new_signed_reg_immcope IMMC_SUFFIX_LONG 1)) (Some (new_mem_immcope 12)) None;
   new_inst_immc IMMC_INST_ADD (Some (new_signed_reg_immcope IMMC_SUFFIX_QUAD 0)) (Some (new_signed_reg_immcope IMMC_SUFFIX_QUAD 0)) (Some (new_signed_reg_immcope IMMC_SUFFIX_LONG 1))] [mkls [mklv 0 2; mklv 2 2] 0 (-1); mkls [mklv 1 2] 0 (-1); mkls [] 0 (-1); mkls [] 0 (-1); mkls [] 0 (-1); mkls [] 0 (-1); mkls [] 0 (-1); mkls [] 0 (-1)].
Example test_x64gen_add_reg_reg_ok : test_x64gen_add_reg_reg = Ok
  [new_inst_x64 X64_INST_MOVX (Some (new_mem_x64ope 8)) (Some (new_reg_x64ope X64_SUFFIX_QUAD CX_REG_ID));
   new_inst_x64 X64_INST_MOVX (Some (new_mem_x64ope 12)) (Some (new_reg_x64ope X64_SUFFIX_LONG DX_REG_ID));
   new_inst_x64 X64_INST_MOVX (Some (new_reg_x64ope X64_SUFFIX_LONG DX_REG_ID)) (Some (new_reg_x64ope X64_SUFFIX_LONG AX_REG_ID));
   new_inst_x64 X64_INST_CXTX (Some (new_suffix_x64ope X64_SUFFIX_LONG)) (Some (new_suffix_x64ope X64_SUFFIX_QUAD));
   new_inst_x64 X64_INST_MOVX (Some (new_reg_x64ope X64_SUFFIX_QUAD AX_REG_ID)) (Some (new_reg_x64ope X64_SUFFIX_QUAD DX_REG_ID));
   new_inst_x64 X64_INST_ADDX (Some (new_reg_x64ope X64_SUFFIX_QUAD DX_REG_ID)) (Some (new_reg_x64ope X64_SUFFIX_QUAD CX_REG_ID))].
Proof. vm_compute. reflexivity. Qed.
(** tests/x64gen/test_arithinst.c test_x64gen_sub_reg_int *)
Definition test_x64gen_sub_reg_int := inst_test [new_inst_immc IMMC_INST_LOAD (Some (new_signed_reg_immcope IMMC_SUFFIX_QUAD 0)) (Some (new_mem_immcope 8)) None;
   new_inst_immc IMMC_INST_SUB (Some (new_signed_reg_immcope IMMC_SUFFIX_QUAD 0)) (Some (new_signed_reg_immcope IMMC_SUFFIX_QUAD 0)) (Some (new_signed_int_immcope IMMC_SUFFIX_LONG IInt 2))] [mkls [mklv 0 1; mklv 1 2] 0 (-1); mkls [] 0 (-1); mkls [] 0 (-1); mkls [] 0 (-1); mkls [] 0 (-1); mkls [] 0 (-1); mkls [] 0 (-1); mkls [] 0 (-1)].
Example test_x64gen_sub_reg_int_ok : test_x64gen_sub_reg_int = Ok
  [new_inst_x64 X64_INST_MOVX (Some (new_mem_x64ope 8)) (Some (new_reg_x64ope X64_SUFFIX_QUAD CX_REG_ID));
   new_inst_x64 X64_INST_SUBX (Some (new_signed_int_x64ope X64_SUFFIX_QUAD IInt 2)) (Some (new_reg_x64ope X64_SUFFIX_QUAD CX_REG_ID))].
Proof. vm_compute. reflexivity. Qed.
(** tests/x64gen/test_arithinst.c test_x64gen_sub_reg_reg *)
Definition test_x64gen_sub_reg_reg := inst_test [new_inst_immc IMMC_INST_LOAD (Some (new_signed_reg_immcope IMMC_SUFFIX_BYTE 0)) (Some (new_mem_immcope 4)) None;
   new_inst_immc IMMC_INST_LOAD (Some (new_signed_reg_immcope IMMC_SUFFIX_BYTE 1)) (Some (new_mem_immcope 8)) None;
   new_inst_immc IMMC_INST_SUB (Some (new_signed_reg_immcope IMMC_SUFFIX_LONG 0)) (Some (new_signed_reg_immcope IMMC_SUFFIX_BYTE 0)) (Some (new_signed_reg_immcope IMMC_SUFFIX_BYTE 1))] [mkls [mklv 0 2; mklv 2 2] 0 (-1); mkls [mklv 1 2] 0 (-1); mkls [] 0 (-1); mkls [] 0 (-1); mkls [] 0 (-1); mkls [] 0 (-1); mkls [] 0 (-1); mkls [] 0 (-1)].
Example test_x64gen_sub_reg_reg_ok : test_x64gen_sub_reg_reg = Ok
  [new_inst_x64 X64_INST_MOVX (Some (new_mem_x64ope 4)) (Some (new_reg_x64ope X64_SUFFIX_BYTE CX_REG_ID));
   new_inst_x64 X64_INST_MOVX (Some (new_mem_x64ope 8)) (Some (new_reg_x64ope X64_SUFFIX_BYTE DX_REG_ID));
   new_inst_x64 X64_INST_SUBX (Some (new_reg_x64ope X64_SUFFIX_BYTE DX_REG_ID)) (Some (new_reg_x64ope X64_SUFFIX_BYTE CX_REG_ID));
   new_inst_x64 X64_INST_MOVSXX (Some (new_reg_x64ope X64_SUFFIX_BYTE CX_REG_ID)) (Some (new_reg_x64ope X64_SUFFIX_LONG CX_REG_ID))].
Proof. vm_compute. reflexivity. Qed.
(** tests/x64gen/test_arithinst.c test_x64gen_mul_reg_int *)
Definition test_x64gen_mul_reg_int := inst_test [new_inst_immc IMMC_INST_LOAD (Some (new_signed_reg_immcope IMMC_SUFFIX_LONG 0)) (Some (new_mem_immcope 4)) None;
   new_inst_immc IMMC_INST_MUL (Some (new_signed_reg_immcope IMMC_SUFFIX_LONG 0)) (Some (new_signed_reg_immcope IMMC_SUFFIX_LONG 0)) (Some (new_signed_int_immcope IMMC_SUFFIX_LONG IInt 2))] [mkls [mklv 0 1; mklv 1 2] 0 (-1); mkls [] 0 (-1); mkls [] 0 (-1); mkls [] 0 (-1); mkls [] 0 (-1); mkls [] 0 (-1); mkls [] 0 (-1); mkls [] 0 (-1)].
Example test_x64gen_mul_reg_int_ok : test_x64gen_mul_reg_int = Ok
  [new_inst_x64 X64_INST_MOVX (Some (new_mem_x64ope 4)) (Some (new_reg_x64ope X64_SUFFIX_LONG CX_REG_ID));
   new_inst_x64 X64_INST_MOVX (Some (new_reg_x64ope X64_SUFFIX_LONG CX_REG_ID)) (Some (new_reg_x64ope X64_SUFFIX_LONG AX_REG_ID));
   new_inst_x64 X64_INST_IMULX (Some (new_signed_int_x64ope X64_SUFFIX_LONG IInt 2)) (Some (new_reg_x64ope X64_SUFFIX_LONG AX_REG_ID));
   new_inst_x64 X64_INST_MOVX (Some (new_reg_x64ope X64_SUFFIX_LONG AX_REG_ID)) (Some (new_reg_x64ope X64_SUFFIX_LONG CX_REG_ID))].
Proof. vm_compute. reflexivity. Qed.
(** tests/x64gen/test_arithinst.c test_x64gen_mul_reg_reg *)
Definition test_x64gen_mul_reg_reg := inst_test [new_inst_immc IMMC_INST_LOAD (Some (new_signed_reg_immcope IMMC_SUFFIX_BYTE 0)) (Some (new_mem_immcope 4)) None;
   new_inst_immc IMMC_INST_LOAD (Some (new_signed_reg_immcope IMMC_SUFFIX_LONG 1)) (Some (new_mem_immcope 8)) None;
   new_inst_immc IMMC_INST_MUL (Some (new_signed_reg_immcope IMMC_SUFFIX_QUAD 0)) (Some (new_signed_reg_immcope IMMC_SUFFIX_BYTE 0)) (Some (new_signed_reg_immcope IMMC_SUFFIX_LONG 1))] [mkls [mklv 0 2; mklv 2 2] 0 (-1); mkls [mklv 1 2] 0 (-1); mkls [] 0 (-1); mkls [] 0 (-1); mkls [] 0 (-1); mkls [] 0 (-1); mkls [] 0 (-1); mkls [] 0 (-1)].
Example test_x64gen_mul_reg_reg_ok : test_x64gen_mul_reg_reg = Ok
  [new_inst_x64 X64_INST_MOVX (Some (new_mem_x64ope 4)) (Some (new_reg_x64ope X64_SUFFIX_BYTE CX_REG_ID));
   new_inst_x64 X64_INST_MOVX (Some (new_mem_x64ope 8)) (Some (new_reg_x64ope X64_SUFFIX_LONG DX_REG_ID));
   new_inst_x64 X64_INST_MOVSXX (Some (new_reg_x64ope X64_SUFFIX_BYTE CX_REG_ID)) (Some (new_reg_x64ope X64_SUFFIX_LONG AX_REG_ID));
   new_inst_x64 X64_INST_IMULX (Some (new_reg_x64ope X64_SUFFIX_LONG DX_REG_ID)) (Some (new_reg_x64ope X64_SUFFIX_LONG AX_REG_ID));
   new_inst_x64 X64_INST_CXTX (Some (new_suffix_x64ope X64_SUFFIX_LONG)) (Some (new_suffix_x64ope X64_SUFFIX_QUAD));
   new_inst_x64 X64_INST_MOVX (Some (new_reg_x64ope X64_SUFFIX_QUAD AX_REG_ID)) (Some (new_reg_x64ope X64_SUFFIX_QUAD CX_REG_ID))].
Proof. vm_compute. reflexivity. Qed.
(** tests/x64gen/test_arithinst.c test_x64gen_div_signed_reg_int *)
Definition test_x64gen_div_signed_reg_int := inst_test [new_inst_immc IMMC_INST_LOAD (Some (new_signed_reg_immcope IMMC_SUFFIX_LONG 0)) (Some (new_mem_immcope 4)) None;
   new_inst_immc IMMC_INST_DIV (Some (new_signed_reg_immcope IMMC_SUFFIX_LONG 0)) (Some (new_signed_reg_immcope IMMC_SUFFIX_LONG 0)) (Some (new_signed_int_immcope IMMC_SUFFIX_LONG IInt 2))] [mkls [mklv 0 1; mklv 1 2] 0 (-1); mkls [] 0 (-1); mkls [] 0 (-1); mkls [] 0 (-1); mkls [] 0 (-1); mkls [] 0 (-1); mkls [] 0 (-1); mkls [] 0 (-1)].
Example test_x64gen_div_signed_reg_int_ok : test_x64gen_div_signed_reg_int = Ok
  [new_inst_x64 X64_INST_MOVX (Some (new_mem_x64ope 4)) (Some (new_reg_x64ope X64_SUFFIX_LONG CX_REG_ID));
   new_inst_x64 X64_INST_MOVX (Some (new_reg_x64ope X64_SUFFIX_LONG CX_REG_ID)) (Some (new_reg_x64ope X64_SUFFIX_LONG AX_REG_ID));
   new_inst_x64 X64_INST_MOVX (Some (new_signed_int_x64ope X64_SUFFIX_LONG IInt 2)) (Some (new_reg_x64ope X64_SUFFIX_LONG R10_REG_ID));
   new_inst_x64 X64_INST_CXTD (Some (new_suffix_x64ope X64_SUFFIX_LONG)) None;
   new_inst_x64 X64_INST_IDIVX (Some (new_reg_x64ope X64_SUFFIX_LONG R10_REG_ID)) None;
   new_inst_x64 X64_INST_MOVX (Some (new_reg_x64ope X64_SUFFIX_LONG AX_REG_ID)) (Some (new_reg_x64ope X64_SUFFIX_LONG CX_REG_ID))].
Proof. vm_compute. reflexivity. Qed.
(** tests/x64gen/test_arithinst.c test_x64gen_div_signed_reg_reg *)
Definition test_x64gen_div_signed_reg_reg := inst_test [new_inst_immc IMMC_INST_LOAD (Some (new_signed_reg_immcope IMMC_SUFFIX_QUAD 2)) (Some (new_mem_immcope 8)) None;
   new_inst_immc IMMC_INST_LOAD (Some (new_signed_reg_immcope IMMC_SUFFIX_LONG 3)) (Some (new_mem_immcope 12)) None;
   new_inst_immc IMMC_INST_DIV (Some (new_signed_reg_immcope IMMC_SUFFIX_QUAD 2)) (Some (new_signed_reg_immcope IMMC_SUFFIX_QUAD 2)) (Some (new_signed_reg_immcope IMMC_SUFFIX_LONG 3))] [mkls [] 0 (-1); mkls [] 0 (-1); mkls [mklv 0 2; mklv 2 2] 0 (-1); mkls [mklv 1 2] 0 (-1); mkls [] 0 (-1); mkls [] 0 (-1); mkls [] 0 (-1); mkls [] 0 (-1)].
Example test_x64gen_div_signed_reg_reg_ok : test_x64gen_div_signed_reg_reg = Ok
  [new_inst_x64 X64_INST_MOVX (Some (new_mem_x64ope 8)) (Some (new_reg_x64ope X64_SUFFIX_QUAD SI_REG_ID));
   new_inst_x64 X64_INST_MOVX (Some (new_mem_x64ope 12)) (Some (new_reg_x64ope X64_SUFFIX_LONG DI_REG_ID));
   new_inst_x64 X64_INST_MOVX (Some (new_reg_x64ope X64_SUFFIX_QUAD SI_REG_ID)) (Some (new_reg_x64ope X64_SUFFIX_QUAD AX_REG_ID));
   new_inst_x64 X64_INST_MOVX (Some (new_reg_x64ope X64_SUFFIX_LONG DI_REG_ID)) (Some (new_reg_x64ope X64_SUFFIX_LONG AX_REG_ID));
   new_inst_x64 X64_INST_CXTX (Some (new_suffix_x64ope X64_SUFFIX_LONG)) (Some (new_suffix_x64ope X64_SUFFIX_QUAD));
   new_inst_x64 X64_INST_MOVX (Some (new_reg_x64ope X64_SUFFIX_QUAD AX_REG_ID)) (Some (new_reg_x64ope X64_SUFFIX_QUAD DI_REG_ID));
   new_inst_x64 X64_INST_CQTO None None;
   new_inst_x64 X64_INST_IDIVX (Some (new_reg_x64ope X64_SUFFIX_QUAD DI_REG_ID)) None;
   new_inst_x64 X64_INST_MOVX (Some (new_reg_x64ope X64_SUFFIX_QUAD AX_REG_ID)) (Some (new_reg_x64ope X64_SUFFIX_QUAD SI_REG_ID))].
Proof. vm_compute. reflexivity. Qed.
(** tests/x64gen/test_arithinst.c test_x64gen_div_signed_rdx_inarg *)
Definition test_x64gen_div_signed_rdx_inarg := inst_test [new_inst_immc IMMC_INST_LOAD (Some (new_signed_reg_immcope IMMC_SUFFIX_LONG 0)) (Some (new_mem_immcope 4)) None;
   new_inst_immc IMMC_INST_LOAD (Some (new_signed_reg_immcope IMMC_SUFFIX_LONG 1)) (Some (new_mem_immcope 8)) None;
   new_inst_immc IMMC_INST_DIV (Some (new_signed_reg_immcope IMMC_SUFFIX_LONG 0)) (Some (new_signed_reg_immcope IMMC_SUFFIX_LONG 0)) (Some (new_signed_reg_immcope IMMC_SUFFIX_LONG 1))] [mkls [mklv 0 2; mklv 2 2] 0 (-1); mkls [mklv 1 2] 0 (-1); mkls [] 0 (-1); mkls [] 0 (-1); mkls [] 0 (-1); mkls [] 0 (-1); mkls [] 0 (-1); mkls [] 0 (-1)].
Example test_x64gen_div_signed_rdx_inarg_ok : test_x64gen_div_signed_rdx_inarg = Ok
  [new_inst_x64 X64_INST_MOVX (Some (new_mem_x64ope 4)) (Some (new_reg_x64ope X64_SUFFIX_LONG CX_REG_ID));
   new_inst_x64 X64_INST_MOVX (Some (new_mem_x64ope 8)) (Some (new_reg_x64ope X64_SUFFIX_LONG DX_REG_ID));
   new_inst_x64 X64_INST_MOVX (Some (new_reg_x64ope X64_SUFFIX_LONG CX_REG_ID)) (Some (new_reg_x64ope X64_SUFFIX_LONG AX_REG_ID));
   new_inst_x64 X64_INST_MOVX (Some (new_reg_x64ope X64_SUFFIX_LONG DX_REG_ID)) (Some (new_reg_x64ope X64_SUFFIX_LONG CX_REG_ID));
   new_inst_x64 X64_INST_CXTD (Some (new_suffix_x64ope X64_SUFFIX_LONG)) None;
   new_inst_x64 X64_INST_IDIVX (Some (new_reg_x64ope X64_SUFFIX_LONG CX_REG_ID)) None;
   new_inst_x64 X64_INST_MOVX (Some (new_reg_x64ope X64_SUFFIX_LONG AX_REG_ID)) (Some (new_reg_x64ope X64_SUFFIX_LONG CX_REG_ID))].
Proof. vm_compute. reflexivity. Qed.
(** tests/x64gen/test_arithinst.c test_x64gen_div_signed_rdx_inuse *)
Definition test_x64gen_div_signed_rdx_inuse := inst_test [new_inst_immc IMMC_INST_LOAD (Some (new_signed_reg_immcope IMMC_SUFFIX_LONG 1)) (Some (new_mem_immcope 8)) None;
   new_inst_immc IMMC_INST_LOAD (Some (new_signed_reg_immcope IMMC_SUFFIX_LONG 0)) (Some (new_mem_immcope 4)) None;
   new_inst_immc IMMC_INST_DIV (Some (new_signed_reg_immcope IMMC_SUFFIX_LONG 0)) (Some (new_signed_reg_immcope IMMC_SUFFIX_LONG 0)) (Some (new_signed_int_immcope IMMC_SUFFIX_LONG IInt 2))] [mkls [mklv 1 2; mklv 2 3] 0 (-1); mkls [mklv 0 4] 0 (-1); mkls [] 0 (-1); mkls [] 0 (-1); mkls [] 0 (-1); mkls [] 0 (-1); mkls [] 0 (-1); mkls [] 0 (-1)].
Example test_x64gen_div_signed_rdx_inuse_ok : test_x64gen_div_signed_rdx_inuse = Ok
  [new_inst_x64 X64_INST_MOVX (Some (new_mem_x64ope 8)) (Some (new_reg_x64ope X64_SUFFIX_LONG DX_REG_ID));
   new_inst_x64 X64_INST_MOVX (Some (new_mem_x64ope 4)) (Some (new_reg_x64ope X64_SUFFIX_LONG CX_REG_ID));
   new_inst_x64 X64_INST_MOVX (Some (new_reg_x64ope X64_SUFFIX_LONG CX_REG_ID)) (Some (new_reg_x64ope X64_SUFFIX_LONG AX_REG_ID));
   new_inst_x64 X64_INST_MOVX (Some (new_signed_int_x64ope X64_SUFFIX_LONG IInt 2)) (Some (new_reg_x64ope X64_SUFFIX_LONG R10_REG_ID));
   new_inst_x64 X64_INST_MOVX (Some (new_reg_x64ope X64_SUFFIX_QUAD DX_REG_ID)) (Some (new_reg_x64ope X64_SUFFIX_QUAD BX_REG_ID));
   new_inst_x64 X64_INST_CXTD (Some (new_suffix_x64ope X64_SUFFIX_LONG)) None;
   new_inst_x64 X64_INST_IDIVX (Some (new_reg_x64ope X64_SUFFIX_LONG R10_REG_ID)) None;
   new_inst_x64 X64_INST_MOVX (Some (new_reg_x64ope X64_SUFFIX_LONG AX_REG_ID)) (Some (new_reg_x64ope X64_SUFFIX_LONG CX_REG_ID));
   new_inst_x64 X64_INST_MOVX (Some (new_reg_x64ope X64_SUFFIX_QUAD BX_REG_ID)) (Some (new_reg_x64ope X64_SUFFIX_QUAD DX_REG_ID))].
Proof. vm_compute. reflexivity. Qed.
(** tests/x64gen/test_arithinst.c test_x64gen_div_unsigned_reg_int *)
Definition test_x64gen_div_unsigned_reg_int := inst_test [new_inst_immc IMMC_INST_LOAD (Some (new_unsigned_reg_immcope IMMC_SUFFIX_LONG 0)) (Some (new_mem_immcope 4)) None;
   new_inst_immc IMMC_INST_DIV (Some (new_unsigned_reg_immcope IMMC_SUFFIX_LONG 0)) (Some (new_unsigned_reg_immcope IMMC_SUFFIX_LONG 0)) (Some (new_unsigned_int_immcope IMMC_SUFFIX_LONG IUInt 3))] [mkls [mklv 0 1; mklv 1 2] 0 (-1); mkls [] 0 (-1); mkls [] 0 (-1); mkls [] 0 (-1); mkls [] 0 (-1); mkls [] 0 (-1); mkls [] 0 (-1); mkls [] 0 (-1)].
Example test_x64gen_div_unsigned_reg_int_ok : test_x64gen_div_unsigned_reg_int = Ok
  [new_inst_x64 X64_INST_MOVX (Some (new_mem_x64ope 4)) (Some (new_reg_x64ope X64_SUFFIX_LONG CX_REG_ID));
   new_inst_x64 X64_INST_MOVX (Some (new_reg_x64ope X64_SUFFIX_LONG CX_REG_ID)) (Some (new_reg_x64ope X64_SUFFIX_LONG AX_REG_ID));
   new_inst_x64 X64_INST_MOVX (Some (new_unsigned_int_x64ope X64_SUFFIX_LONG IUInt 3)) (Some (new_reg_x64ope X64_SUFFIX_LONG R10_REG_ID));
   new_inst_x64 X64_INST_MOVX (Some (new_signed_int_x64ope X64_SUFFIX_LONG IInt 0)) (Some (new_reg_x64ope X64_SUFFIX_LONG DX_REG_ID));
   new_inst_x64 X64_INST_DIVX (Some (new_reg_x64ope X64_SUFFIX_LONG R10_REG_ID)) None;
   new_inst_x64 X64_INST_MOVX (Some (new_reg_x64ope X64_SUFFIX_LONG AX_REG_ID)) (Some (new_reg_x64ope X64_SUFFIX_LONG CX_REG_ID))].
Proof. vm_compute. reflexivity. Qed.
(** tests/x64gen/test_arithinst.c test_x64gen_div_unsigned_reg_reg *)
Definition test_x64gen_div_unsigned_reg_reg := inst_test [new_inst_immc IMMC_INST_LOAD (Some (new_unsigned_reg_immcope IMMC_SUFFIX_QUAD 2)) (Some (new_mem_immcope 8)) None;
   new_inst_immc IMMC_INST_LOAD (Some (new_unsigned_reg_immcope IMMC_SUFFIX_LONG 3)) (Some (new_mem_immcope 12)) None;
   new_inst_immc IMMC_INST_DIV (Some (new_unsigned_reg_immcope IMMC_SUFFIX_QUAD 2)) (Some (new_unsigned_reg_immcope IMMC_SUFFIX_QUAD 2)) (Some (new_unsigned_reg_immcope IMMC_SUFFIX_LONG 3))] [mkls [] 0 (-1); mkls [] 0 (-1); mkls [mklv 0 2; mklv 2 2] 0 (-1); mkls [mklv 1 2] 0 (-1); mkls [] 0 (-1); mkls [] 0 (-1); mkls [] 0 (-1); mkls [] 0 (-1)].
Example test_x64gen_div_unsigned_reg_reg_ok : test_x64gen_div_unsigned_reg_reg = Ok
  [new_inst_x64 X64_INST_MOVX (Some (new_mem_x64ope 8)) (Some (new_reg_x64ope X64_SUFFIX_QUAD SI_REG_ID));
   new_inst_x64 X64_INST_MOVX (Some (new_mem_x64ope 12)) (Some (new_reg_x64ope X64_SUFFIX_LONG DI_REG_ID));
   new_inst_x64 X64_INST_MOVX (Some (new_reg_x64ope X64_SUFFIX_QUAD SI_REG_ID)) (Some (new_reg_x64ope X64_SUFFIX_QUAD AX_REG_ID));
   new_inst_x64 X64_INST_MOVX (Some (new_signed_int_x64ope X64_SUFFIX_LONG IInt 0)) (Some (new_reg_x64ope X64_SUFFIX_LONG DX_REG_ID));
   new_inst_x64 X64_INST_DIVX (Some (new_reg_x64ope X64_SUFFIX_QUAD DI_REG_ID)) None;
   new_inst_x64 X64_INST_MOVX (Some (new_reg_x64ope X64_SUFFIX_QUAD AX_REG_ID)) (Some (new_reg_x64ope X64_SUFFIX_QUAD SI_REG_ID))].
Proof. vm_compute. reflexivity. Qed.
(** tests/x64gen/test_arithinst.c test_x64gen_div_unsigned_rdx_inarg *)
Definition test_x64gen_div_unsigned_rdx_inarg := inst_test [new_inst_immc IMMC_INST_LOAD (Some (new_unsigned_reg_immcope IMMC_SUFFIX_LONG 0)) (Some (new_mem_immcope 4)) None;
   new_inst_immc IMMC_INST_LOAD (Some (new_unsigned_reg_immcope IMMC_SUFFIX_LONG 1)) (Some (new_mem_immcope 8)) None;
   new_inst_immc IMMC_INST_DIV (Some (new_unsigned_reg_immcope IMMC_SUFFIX_LONG 0)) (Some (new_unsigned_reg_immcope IMMC_SUFFIX_LONG 0)) (Some (new_unsigned_reg_immcope IMMC_SUFFIX_LONG 1))] [mkls [mklv 0 2; mklv 2 2] 0 (-1); mkls [mklv 1 2] 0 (-1); mkls [] 0 (-1); mkls [] 0 (-1); mkls [] 0 (-1); mkls [] 0 (-1); mkls [] 0 (-1); mkls [] 0 (-1)].
Example test_x64gen_div_unsigned_rdx_inarg_ok : test_x64gen_div_unsigned_rdx_inarg = Ok
  [new_inst_x64 X64_INST_MOVX (Some (new_mem_x64ope 4)) (Some (new_reg_x64ope X64_SUFFIX_LONG CX_REG_ID));
   new_inst_x64 X64_INST_MOVX (Some (new_mem_x64ope 8)) (Some (new_reg_x64ope X64_SUFFIX_LONG DX_REG_ID));
   new_inst_x64 X64_INST_MOVX (Some (new_reg_x64ope X64_SUFFIX_LONG CX_REG_ID)) (Some (new_reg_x64ope X64_SUFFIX_LONG AX_REG_ID));
   new_inst_x64 X64_INST_MOVX (Some (new_reg_x64ope X64_SUFFIX_LONG DX_REG_ID)) (Some (new_reg_x64ope X64_SUFFIX_LONG CX_REG_ID));
   new_inst_x64 X64_INST_MOVX (Some (new_signed_int_x64ope X64_SUFFIX_LONG IInt 0)) (Some (new_reg_x64ope X64_SUFFIX_LONG DX_REG_ID));
   new_inst_x64 X64_INST_DIVX (Some (new_reg_x64ope X64_SUFFIX_LONG CX_REG_ID)) None;
   new_inst_x64 X64_INST_MOVX (Some (new_reg_x64ope X64_SUFFIX_LONG AX_REG_ID)) (Some (new_reg_x64ope X64_SUFFIX_LONG CX_REG_ID))].
Proof. vm_compute. reflexivity. Qed.
(** tests/x64gen/test_arithinst.c test_x64gen_div_unsigned_rdx_inuse *)
Definition test_x64gen_div_unsigned_rdx_inuse := inst_test [new_inst_immc IMMC_INST_LOAD (Some (new_unsigned_reg_immcope IMMC_SUFFIX_LONG 1)) (Some (new_mem_immcope 8)) None;
   new_inst_immc IMMC_INST_LOAD (Some (new_unsigned_reg_immcope IMMC_SUFFIX_LONG 0)) (Some (new_mem_immcope 4)) None;
   new_inst_immc IMMC_INST_DIV (Some (new_unsigned_reg_immcope IMMC_SUFFIX_LONG 0)) (Some (new_unsigned_reg_immcope IMMC_SUFFIX_LONG 0)) (Some (new_unsigned_int_immcope IMMC_SUFFIX_LONG IUInt 2))] [mkls [mklv 1 2; mklv 2 3] 0 (-1); mkls [mklv 0 4] 0 (-1); mkls [] 0 (-1); mkls [] 0 (-1); mkls [] 0 (-1); mkls [] 0 (-1); mkls [] 0 (-1); mkls [] 0 (-1)].
Example test_x64gen_div_unsigned_rdx_inuse_ok : test_x64gen_div_unsigned_rdx_inuse = Ok
  [new_inst_x64 X64_INST_MOVX (Some (new_mem_x64ope 8)) (Some (new_reg_x64ope X64_SUFFIX_LONG DX_REG_ID));
   new_inst_x64 X64_INST_MOVX (Some (new_mem_x64ope 4)) (Some (new_reg_x64ope X64_SUFFIX_LONG CX_REG_ID));
   new_inst_x64 X64_INST_MOVX (Some (new_reg_x64ope X64_SUFFIX_LONG CX_REG_ID)) (Some (new_reg_x64ope X64_SUFFIX_LONG AX_REG_ID));
   new_inst_x64 X64_INST_MOVX (Some (new_unsigned_int_x64ope X64_SUFFIX_LONG IUInt 2)) (Some (new_reg_x64ope X64_SUFFIX_LONG R10_REG_ID));
   new_inst_x64 X64_INST_MOVX (Some (new_reg_x64ope X64_SUFFIX_QUAD DX_REG_ID)) (Some (new_reg_x64ope X64_SUFFIX_QUAD BX_REG_ID));
   new_inst_x64 X64_INST_MOVX (Some (new_signed_int_x64ope X64_SUFFIX_LONG IInt 0)) (Some (new_reg_x64ope X64_SUFFIX_LONG DX_REG_ID));
   new_inst_x64 X64_INST_DIVX (Some (new_reg_x64ope X64_SUFFIX_LONG R10_REG_ID)) None;
   new_inst_x64 X64_INST_MOVX (Some (new_reg_x64ope X64_SUFFIX_LONG AX_REG_ID)) (Some (new_reg_x64ope X64_SUFFIX_LONG CX_REG_ID));
   new_inst_x64 X64_INST_MOVX (Some (new_reg_x64ope X64_SUFFIX_QUAD BX_REG_ID)) (Some (new_reg_x64ope X64_SUFFIX_QUAD DX_REG_ID))].
Proof. vm_compute. reflexivity. Qed.
(** tests/x64gen/test_arithinst.c test_x64gen_mod_signed_reg_int *)
Definition test_x64gen_mod_signed_reg_int := inst_test [new_inst_immc IMMC_INST_LOAD (Some (new_signed_reg_immcope IMMC_SUFFIX_LONG 0)) (Some (new_mem_immcope 4)) None;
   new_inst_immc IMMC_INST_MOD (Some (new_signed_reg_immcope IMMC_SUFFIX_LONG 0)) (Some (new_signed_reg_immcope IMMC_SUFFIX_LONG 0)) (Some (new_signed_int_immcope IMMC_SUFFIX_LONG IInt 3))] [mkls [mklv 0 1; mklv 1 2] 0 (-1); mkls [] 0 (-1); mkls [] 0 (-1); mkls [] 0 (-1); mkls [] 0 (-1); mkls [] 0 (-1); mkls [] 0 (-1); mkls [] 0 (-1)].
Example test_x64gen_mod_signed_reg_int_ok : test_x64gen_mod_signed_reg_int = Ok
  [new_inst_x64 X64_INST_MOVX (Some (new_mem_x64ope 4)) (Some (new_reg_x64ope X64_SUFFIX_LONG CX_REG_ID));
   new_inst_x64 X64_INST_MOVX (Some (new_reg_x64ope X64_SUFFIX_LONG CX_REG_ID)) (Some (new_reg_x64ope X64_SUFFIX_LONG AX_REG_ID));
   new_inst_x64 X64_INST_MOVX (Some (new_signed_int_x64ope X64_SUFFIX_LONG IInt 3)) (Some (new_reg_x64ope X64_SUFFIX_LONG R10_REG_ID));
   new_inst_x64 X64_INST_CXTD (Some (new_suffix_x64ope X64_SUFFIX_LONG)) None;
   new_inst_x64 X64_INST_IDIVX (Some (new_reg_x64ope X64_SUFFIX_LONG R10_REG_ID)) None;
   new_inst_x64 X64_INST_MOVX (Some (new_reg_x64ope X64_SUFFIX_LONG DX_REG_ID)) (Some (new_reg_x64ope X64_SUFFIX_LONG CX_REG_ID))].
Proof. vm_compute. reflexivity. Qed.
(** tests/x64gen/test_arithinst.c test_x64gen_mod_signed_reg_reg *)
Definition test_x64gen_mod_signed_reg_reg := inst_test [new_inst_immc IMMC_INST_LOAD (Some (new_signed_reg_immcope IMMC_SUFFIX_QUAD 2)) (Some (new_mem_immcope 8)) None;
   new_inst_immc IMMC_INST_LOAD (Some (new_signed_reg_immcope IMMC_SUFFIX_LONG 3)) (Some (new_mem_immcope 12)) None;
   new_inst_immc IMMC_INST_MOD (Some (new_signed_reg_immcope IMMC_SUFFIX_QUAD 2)) (Some (new_signed_reg_immcope IMMC_SUFFIX_QUAD 2)) (Some (new_signed_reg_immcope IMMC_SUFFIX_LONG 3))] [mkls [] 0 (-1); mkls [] 0 (-1); mkls [mklv 0 2; mklv 2 2] 0 (-1); mkls [mklv 1 2] 0 (-1); mkls [] 0 (-1); mkls [] 0 (-1); mkls [] 0 (-1); mkls [] 0 (-1)].
Example test_x64gen_mod_signed_reg_reg_ok : test_x64gen_mod_signed_reg_reg = Ok
  [new_inst_x64 X64_INST_MOVX (Some (new_mem_x64ope 8)) (Some (new_reg_x64ope X64_SUFFIX_QUAD SI_REG_ID));
   new_inst_x64 X64_INST_MOVX (Some (new_mem_x64ope 12)) (Some (new_reg_x64ope X64_SUFFIX_LONG DI_REG_ID));
   new_inst_x64 X64_INST_MOVX (Some (new_reg_x64ope X64_SUFFIX_QUAD SI_REG_ID)) (Some (new_reg_x64ope X64_SUFFIX_QUAD AX_REG_ID));
   new_inst_x64 X64_INST_MOVX (Some (new_reg_x64ope X64_SUFFIX_LONG DI_REG_ID)) (Some (new_reg_x64ope X64_SUFFIX_LONG AX_REG_ID));
   new_inst_x64 X64_INST_CXTX (Some (new_suffix_x64ope X64_SUFFIX_LONG)) (Some (new_suffix_x64ope X64_SUFFIX_QUAD));
   new_inst_x64 X64_INST_MOVX (Some (new_reg_x64ope X64_SUFFIX_QUAD AX_REG_ID)) (Some (new_reg_x64ope X64_SUFFIX_QUAD DI_REG_ID));
   new_inst_x64 X64_INST_CQTO None None;
   new_inst_x64 X64_INST_IDIVX (Some (new_reg_x64ope X64_SUFFIX_QUAD DI_REG_ID)) None;
   new_inst_x64 X64_INST_MOVX (Some (new_reg_x64ope X64_SUFFIX_QUAD DX_REG_ID)) (Some (new_reg_x64ope X64_SUFFIX_QUAD SI_REG_ID))].
Proof. vm_compute. reflexivity. Qed.
(** tests/x64gen/test_arithinst.c test_x64gen_mod_signed_rdx_inarg *)
Definition test_x64gen_mod_signed_rdx_inarg := inst_test [new_inst_immc IMMC_INST_LOAD (Some (new_signed_reg_immcope IMMC_SUFFIX_LONG 1)) (Some (new_mem_immcope 4)) None;
   new_inst_immc IMMC_INST_LOAD (Some (new_signed_reg_immcope IMMC_SUFFIX_LONG 2)) (Some (new_mem_immcope 8)) None;
   new_inst_immc IMMC_INST_MOD (Some (new_signed_reg_immcope IMMC_SUFFIX_LONG 1)) (Some (new_signed_reg_immcope IMMC_SUFFIX_LONG 1)) (Some (new_signed_reg_immcope IMMC_SUFFIX_LONG 2))] [mkls [] 0 (-1); mkls [mklv 0 2; mklv 2 2] 0 (-1); mkls [mklv 1 2] 0 (-1); mkls [] 0 (-1); mkls [] 0 (-1); mkls [] 0 (-1); mkls [] 0 (-1); mkls [] 0 (-1)].
Example test_x64gen_mod_signed_rdx_inarg_ok : test_x64gen_mod_signed_rdx_inarg = Ok
  [new_inst_x64 X64_INST_MOVX (Some (new_mem_x64ope 4)) (Some (new_reg_x64ope X64_SUFFIX_LONG DX_REG_ID));
   new_inst_x64 X64_INST_MOVX (Some (new_mem_x64ope 8)) (Some (new_reg_x64ope X64_SUFFIX_LONG SI_REG_ID));
   new_inst_x64 X64_INST_MOVX (Some (new_reg_x64ope X64_SUFFIX_LONG DX_REG_ID)) (Some (new_reg_x64ope X64_SUFFIX_LONG AX_REG_ID));
   new_inst_x64 X64_INST_CXTD (Some (new_suffix_x64ope X64_SUFFIX_LONG)) None;
   new_inst_x64 X64_INST_IDIVX (Some (new_reg_x64ope X64_SUFFIX_LONG SI_REG_ID)) None].
Proof. vm_compute. reflexivity. Qed.
(** tests/x64gen/test_arithinst.c test_x64gen_mod_signed_rdx_inuse *)
Definition test_x64gen_mod_signed_rdx_inuse := inst_test [new_inst_immc IMMC_INST_LOAD (Some (new_signed_reg_immcope IMMC_SUFFIX_LONG 1)) (Some (new_mem_immcope 4)) None;
   new_inst_immc IMMC_INST_LOAD (Some (new_signed_reg_immcope IMMC_SUFFIX_QUAD 2)) (Some (new_mem_immcope 12)) None;
   new_inst_immc IMMC_INST_LOAD (Some (new_signed_reg_immcope IMMC_SUFFIX_LONG 3)) (Some (new_mem_immcope 16)) None;
   new_inst_immc IMMC_INST_MOD (Some (new_signed_reg_immcope IMMC_SUFFIX_QUAD 2)) (Some (new_signed_reg_immcope IMMC_SUFFIX_QUAD 2)) (Some (new_signed_reg_immcope IMMC_SUFFIX_LONG 3))] [mkls [] 0 (-1); mkls [mklv 0 4] 0 (-1); mkls [mklv 1 2; mklv 2 2] 0 (-1); mkls [mklv 1 2] 0 (-1); mkls [] 0 (-1); mkls [] 0 (-1); mkls [] 0 (-1); mkls [] 0 (-1)].
Example test_x64gen_mod_signed_rdx_inuse_ok : test_x64gen_mod_signed_rdx_inuse = Ok
  [new_inst_x64 X64_INST_MOVX (Some (new_mem_x64ope 4)) (Some (new_reg_x64ope X64_SUFFIX_LONG DX_REG_ID));
   new_inst_x64 X64_INST_MOVX (Some (new_mem_x64ope 12)) (Some (new_reg_x64ope X64_SUFFIX_QUAD SI_REG_ID));
   new_inst_x64 X64_INST_MOVX (Some (new_mem_x64ope 16)) (Some (new_reg_x64ope X64_SUFFIX_LONG DI_REG_ID));
   new_inst_x64 X64_INST_MOVX (Some (new_reg_x64ope X64_SUFFIX_QUAD SI_REG_ID)) (Some (new_reg_x64ope X64_SUFFIX_QUAD AX_REG_ID));
   new_inst_x64 X64_INST_MOVX (Some (new_reg_x64ope X64_SUFFIX_LONG DI_REG_ID)) (Some (new_reg_x64ope X64_SUFFIX_LONG AX_REG_ID));
   new_inst_x64 X64_INST_CXTX (Some (new_suffix_x64ope X64_SUFFIX_LONG)) (Some (new_suffix_x64ope X64_SUFFIX_QUAD));
   new_inst_x64 X64_INST_MOVX (Some (new_reg_x64ope X64_SUFFIX_QUAD AX_REG_ID)) (Some (new_reg_x64ope X64_SUFFIX_QUAD DI_REG_ID));
   new_inst_x64 X64_INST_MOVX (Some (new_reg_x64ope X64_SUFFIX_QUAD DX_REG_ID)) (Some (new_reg_x64ope X64_SUFFIX_QUAD BX_REG_ID));
   new_inst_x64 X64_INST_CQTO None None;
   new_inst_x64 X64_INST_IDIVX (Some (new_reg_x64ope X64_SUFFIX_QUAD DI_REG_ID)) None;
   new_inst_x64 X64_INST_MOVX (Some (new_reg_x64ope X64_SUFFIX_QUAD DX_REG_ID)) (Some (new_reg_x64ope X64_SUFFIX_QUAD SI_REG_ID));
   new_inst_x64 X64_INST_MOVX (Some (new_reg_x64ope X64_SUFFIX_QUAD BX_REG_ID)) (Some (new_reg_x64ope X64_SUFFIX_QUAD DX_REG_ID))].
Proof. vm_compute. reflexivity. Qed.
(** tests/x64gen/test_arithinst.c test_x64gen_mod_unsigned_reg_int *)
Definition test_x64gen_mod_unsigned_reg_int := inst_test [new_inst_immc IMMC_INST_LOAD (Some (new_unsigned_reg_immcope IMMC_SUFFIX_LONG 0)) (Some (new_mem_immcope 4)) None;
   new_inst_immc IMMC_INST_MOD (Some (new_unsigned_reg_immcope IMMC_SUFFIX_LONG 0)) (Some (new_unsigned_reg_immcope IMMC_SUFFIX_LONG 0)) (Some (new_unsigned_int_immcope IMMC_SUFFIX_LONG IUInt 4))] [mkls [mklv 0 1; mklv 1 2] 0 (-1); mkls [] 0 (-1); mkls [] 0 (-1); mkls [] 0 (-1); mkls [] 0 (-1); mkls [] 0 (-1); mkls [] 0 (-1); mkls [] 0 (-1)].
Example test_x64gen_mod_unsigned_reg_int_ok : test_x64gen_mod_unsigned_reg_int = Ok
  [new_inst_x64 X64_INST_MOVX (Some (new_mem_x64ope 4)) (Some (new_reg_x64ope X64_SUFFIX_LONG CX_REG_ID));
   new_inst_x64 X64_INST_MOVX (Some (new_reg_x64ope X64_SUFFIX_LONG CX_REG_ID)) (Some (new_reg_x64ope X64_SUFFIX_LONG AX_REG_ID));
   new_inst_x64 X64_INST_MOVX (Some (new_unsigned_int_x64ope X64_SUFFIX_LONG IUInt 4)) (Some (new_reg_x64ope X64_SUFFIX_LONG R10_REG_ID));
   new_inst_x64 X64_INST_MOVX (Some (new_signed_int_x64ope X64_SUFFIX_LONG IInt 0)) (Some (new_reg_x64ope X64_SUFFIX_LONG DX_REG_ID));
   new_inst_x64 X64_INST_DIVX (Some (new_reg_x64ope X64_SUFFIX_LONG R10_REG_ID)) None;
   new_inst_x64 X64_INST_MOVX (Some (new_reg_x64ope X64_SUFFIX_LONG DX_REG_ID)) (Some (new_reg_x64ope X64_SUFFIX_LONG CX_REG_ID))].
Proof. vm_compute. reflexivity. Qed.
(** tests/x64gen/test_arithinst.c test_x64gen_mod_unsigned_reg_reg *)
Definition test_x64gen_mod_unsigned_reg_reg := inst_test [new_inst_immc IMMC_INST_LOAD (Some (new_unsigned_reg_immcope IMMC_SUFFIX_QUAD 2)) (Some (new_mem_immcope 8)) None;
   new_inst_immc IMMC_INST_LOAD (Some (new_unsigned_reg_immcope IMMC_SUFFIX_BYTE 3)) (Some (new_mem_immcope 12)) None;
   new_inst_immc IMMC_INST_MOD (Some (new_unsigned_reg_immcope IMMC_SUFFIX_QUAD 2)) (Some (new_unsigned_reg_immcope IMMC_SUFFIX_QUAD 2)) (Some (new_unsigned_reg_immcope IMMC_SUFFIX_BYTE 3))] [mkls [] 0 (-1); mkls [] 0 (-1); mkls [mklv 0 2; mklv 2 2] 0 (-1); mkls [mklv 1 2] 0 (-1); mkls [] 0 (-1); mkls [] 0 (-1); mkls [] 0 (-1); mkls [] 0 (-1)].
Example test_x64gen_mod_unsigned_reg_reg_ok : test_x64gen_mod_unsigned_reg_reg = Ok
  [new_inst_x64 X64_INST_MOVX (Some (new_mem_x64ope 8)) (Some (new_reg_x64ope X64_SUFFIX_QUAD SI_REG_ID));
   new_inst_x64 X64_INST_MOVX (Some (new_mem_x64ope 12)) (Some (new_reg_x64ope X64_SUFFIX_BYTE DI_REG_ID));
   new_inst_x64 X64_INST_MOVX (Some (new_reg_x64ope X64_SUFFIX_QUAD SI_REG_ID)) (Some (new_reg_x64ope X64_SUFFIX_QUAD AX_REG_ID));
   new_inst_x64 X64_INST_MOVZXX (Some (new_reg_x64ope X64_SUFFIX_BYTE DI_REG_ID)) (Some (new_reg_x64ope X64_SUFFIX_QUAD DI_REG_ID));
   new_inst_x64 X64_INST_MOVX (Some (new_signed_int_x64ope X64_SUFFIX_LONG IInt 0)) (Some (new_reg_x64ope X64_SUFFIX_LONG DX_REG_ID));
   new_inst_x64 X64_INST_DIVX (Some (new_reg_x64ope X64_SUFFIX_QUAD DI_REG_ID)) None;
   new_inst_x64 X64_INST_MOVX (Some (new_reg_x64ope X64_SUFFIX_QUAD DX_REG_ID)) (Some (new_reg_x64ope X64_SUFFIX_QUAD SI_REG_ID))].
Proof. vm_compute. reflexivity. Qed.
(** tests/x64gen/test_arithinst.c test_x64gen_mod_unsigned_rdx_inarg *)
Definition test_x64gen_mod_unsigned_rdx_inarg := inst_test [new_inst_immc IMMC_INST_LOAD (Some (new_unsigned_reg_immcope IMMC_SUFFIX_BYTE 0)) (Some (new_mem_immcope 4)) None;
   new_inst_immc IMMC_INST_LOAD (Some (new_unsigned_reg_immcope IMMC_SUFFIX_LONG 1)) (Some (new_mem_immcope 8)) None;
   new_inst_immc IMMC_INST_MOD (Some (new_unsigned_reg_immcope IMMC_SUFFIX_LONG 0)) (Some (new_unsigned_reg_immcope IMMC_SUFFIX_BYTE 0)) (Some (new_unsigned_reg_immcope IMMC_SUFFIX_LONG 1))] [mkls [mklv 0 2; mklv 2 2] 0 (-1); mkls [mklv 1 2] 0 (-1); mkls [] 0 (-1); mkls [] 0 (-1); mkls [] 0 (-1); mkls [] 0 (-1); mkls [] 0 (-1); mkls [] 0 (-1)].
Example test_x64gen_mod_unsigned_rdx_inarg_ok : test_x64gen_mod_unsigned_rdx_inarg = Ok
  [new_inst_x64 X64_INST_MOVX (Some (new_mem_x64ope 4)) (Some (new_reg_x64ope X64_SUFFIX_BYTE CX_REG_ID));
   new_inst_x64 X64_INST_MOVX (Some (new_mem_x64ope 8)) (Some (new_reg_x64ope X64_SUFFIX_LONG DX_REG_ID));
   new_inst_x64 X64_INST_MOVZXX (Some (new_reg_x64ope X64_SUFFIX_BYTE CX_REG_ID)) (Some (new_reg_x64ope X64_SUFFIX_LONG AX_REG_ID));
   new_inst_x64 X64_INST_MOVX (Some (new_reg_x64ope X64_SUFFIX_LONG DX_REG_ID)) (Some (new_reg_x64ope X64_SUFFIX_LONG CX_REG_ID));
   new_inst_x64 X64_INST_MOVX (Some (new_signed_int_x64ope X64_SUFFIX_LONG IInt 0)) (Some (new_reg_x64ope X64_SUFFIX_LONG DX_REG_ID));
   new_inst_x64 X64_INST_DIVX (Some (new_reg_x64ope X64_SUFFIX_LONG CX_REG_ID)) None;
   new_inst_x64 X64_INST_MOVX (Some (new_reg_x64ope X64_SUFFIX_LONG DX_REG_ID)) (Some (new_reg_x64ope X64_SUFFIX_LONG CX_REG_ID))].
Proof. vm_compute. reflexivity. Qed.
(** tests/x64gen/test_arithinst.c test_x64gen_mod_unsigned_rdx_inuse *)
Definition test_x64gen_mod_unsigned_rdx_inuse := inst_test [new_inst_immc IMMC_INST_LOAD (Some (new_unsigned_reg_immcope IMMC_SUFFIX_LONG 1)) (Some (new_mem_immcope 4)) None;
   new_inst_immc IMMC_INST_LOAD (Some (new_unsigned_reg_immcope IMMC_SUFFIX_LONG 2)) (Some (new_mem_immcope 8)) None;
   new_inst_immc IMMC_INST_LOAD (Some (new_unsigned_reg_immcope IMMC_SUFFIX_LONG 3)) (Some (new_mem_immcope 12)) None;
   new_inst_immc IMMC_INST_MOD (Some (new_unsigned_reg_immcope IMMC_SUFFIX_LONG 2)) (Some (new_unsigned_reg_immcope IMMC_SUFFIX_LONG 2)) (Some (new_unsigned_reg_immcope IMMC_SUFFIX_LONG 3))] [mkls [] 0 (-1); mkls [mklv 0 4] 0 (-1); mkls [mklv 1 2; mklv 2 2] 0 (-1); mkls [mklv 1 2] 0 (-1); mkls [] 0 (-1); mkls [] 0 (-1); mkls [] 0 (-1); mkls [] 0 (-1)].
Example test_x64gen_mod_unsigned_rdx_inuse_ok : test_x64gen_mod_unsigned_rdx_inuse = Ok
  [new_inst_x64 X64_INST_MOVX (Some (new_mem_x64ope 4)) (Some (new_reg_x64ope X64_SUFFIX_LONG DX_REG_ID));
   new_inst_x64 X64_INST_MOVX (Some (new_mem_x64ope 8)) (Some (new_reg_x64ope X64_SUFFIX_LONG SI_REG_ID));
   new_inst_x64 X64_INST_MOVX (Some (new_mem_x64ope 12)) (Some (new_reg_x64ope X64_SUFFIX_LONG DI_REG_ID));
   new_inst_x64 X64_INST_MOVX (Some (new_reg_x64ope X64_SUFFIX_LONG SI_REG_ID)) (Some (new_reg_x64ope X64_SUFFIX_LONG AX_REG_ID));
   new_inst_x64 X64_INST_MOVX (Some (new_reg_x64ope X64_SUFFIX_QUAD DX_REG_ID)) (Some (new_reg_x64ope X64_SUFFIX_QUAD BX_REG_ID));
   new_inst_x64 X64_INST_MOVX (Some (new_signed_int_x64ope X64_SUFFIX_LONG IInt 0)) (Some (new_reg_x64ope X64_SUFFIX_LONG DX_REG_ID));
   new_inst_x64 X64_INST_DIVX (Some (new_reg_x64ope X64_SUFFIX_LONG DI_REG_ID)) None;
   new_inst_x64 X64_INST_MOVX (Some (new_reg_x64ope X64_SUFFIX_LONG DX_REG_ID)) (Some (new_reg_x64ope X64_SUFFIX_LONG SI_REG_ID));
   new_inst_x64 X64_INST_MOVX (Some (new_reg_x64ope X64_SUFFIX_QUAD BX_REG_ID)) (Some (new_reg_x64ope X64_SUFFIX_QUAD DX_REG_ID))].
Proof. vm_compute. reflexivity. Qed.
(** tests/x64gen/test_arithinst.c test_x64gen_neg_int *)
Definition test_x64gen_neg_int := inst_test [new_inst_immc IMMC_INST_NEG (Some (new_signed_reg_immcope IMMC_SUFFIX_LONG 0)) (Some (new_signed_int_immcope IMMC_SUFFIX_LONG IInt 1)) None] [mkls [mklv 0 1] 0 (-1); mkls [] 0 (-1); mkls [] 0 (-1); mkls [] 0 (-1); mkls [] 0 (-1); mkls [] 0 (-1); mkls [] 0 (-1); mkls [] 0 (-1)].
Example test_x64gen_neg_int_ok : test_x64gen_neg_int = Ok
  [new_inst_x64 X64_INST_MOVX (Some (new_signed_int_x64ope X64_SUFFIX_LONG IInt 1)) (Some (new_reg_x64ope X64_SUFFIX_LONG CX_REG_ID));
   new_inst_x64 X64_INST_NEGX None (Some (new_reg_x64ope X64_SUFFIX_LONG CX_REG_ID))].
Proof. vm_compute. reflexivity. Qed.
(** tests/x64gen/test_arithinst.c test_x64gen_neg_reg *)
Definition test_x64gen_neg_reg := inst_test [new_inst_immc IMMC_INST_LOAD (Some (new_signed_reg_immcope IMMC_SUFFIX_LONG 0)) (Some (new_mem_immcope 4)) None;
   new_inst_immc IMMC_INST_NEG (Some (new_signed_reg_immcope IMMC_SUFFIX_LONG 0)) (Some (new_signed_reg_immcope IMMC_SUFFIX_LONG 0)) None] [mkls [mklv 0 1; mklv 1 1] 0 (-1); mkls [] 0 (-1); mkls [] 0 (-1); mkls [] 0 (-1); mkls [] 0 (-1); mkls [] 0 (-1); mkls [] 0 (-1); mkls [] 0 (-1)].
Example test_x64gen_neg_reg_ok : test_x64gen_neg_reg = Ok
  [new_inst_x64 X64_INST_MOVX (Some (new_mem_x64ope 4)) (Some (new_reg_x64ope X64_SUFFIX_LONG CX_REG_ID));
   new_inst_x64 X64_INST_NEGX None (Some (new_reg_x64ope X64_SUFFIX_LONG CX_REG_ID))].
Proof. vm_compute. reflexivity. Qed.
(** tests/x64gen/test_bitinst.c test_x64gen_seteq_reg_int_signed *)
Definition test_x64gen_seteq_reg_int_signed := inst_test [new_inst_immc IMMC_INST_LOAD (Some (new_signed_reg_immcope IMMC_SUFFIX_BYTE 0)) (Some (new_mem_immcope 4)) None;
   new_inst_immc IMMC_INST_SETEQ (Some (new_signed_reg_immcope IMMC_SUFFIX_LONG 0)) (Some (new_signed_reg_immcope IMMC_SUFFIX_BYTE 0)) (Some (new_signed_int_immcope IMMC_SUFFIX_LONG IInt 1))] [mkls [mklv 0 1; mklv 1 1] 0 (-1); mkls [] 0 (-1); mkls [] 0 (-1); mkls [] 0 (-1); mkls [] 0 (-1); mkls [] 0 (-1); mkls [] 0 (-1); mkls [] 0 (-1)].
Example test_x64gen_seteq_reg_int_signed_ok : test_x64gen_seteq_reg_int_signed = Ok
  [new_inst_x64 X64_INST_MOVX (Some (new_mem_x64ope 4)) (Some (new_reg_x64ope X64_SUFFIX_BYTE CX_REG_ID));
   new_inst_x64 X64_INST_MOVSXX (Some (new_reg_x64ope X64_SUFFIX_BYTE CX_REG_ID)) (Some (new_reg_x64ope X64_SUFFIX_LONG CX_REG_ID));
   new_inst_x64 X64_INST_CMPX (Some (new_signed_int_x64ope X64_SUFFIX_LONG IInt 1)) (Some (new_reg_x64ope X64_SUFFIX_LONG CX_REG_ID));
   new_inst_x64 X64_INST_SETE None (Some (new_reg_x64ope X64_SUFFIX_BYTE CX_REG_ID));
   new_inst_x64 X64_INST_MOVZXX (Some (new_reg_x64ope X64_SUFFIX_BYTE CX_REG_ID)) (Some (new_reg_x64ope X64_SUFFIX_LONG CX_REG_ID))].
Proof. vm_compute. reflexivity. Qed.
(** tests/x64gen/test_bitinst.c test_x64gen_seteq_reg_reg_signed *)
Definition test_x64gen_seteq_reg_reg_signed := inst_test [new_inst_immc IMMC_INST_LOAD (Some (new_signed_reg_immcope IMMC_SUFFIX_LONG 0)) (Some (new_mem_immcope 4)) None;
   new_inst_immc IMMC_INST_LOAD (Some (new_signed_reg_immcope IMMC_SUFFIX_LONG 1)) (Some (new_mem_immcope 8)) None;
   new_inst_immc IMMC_INST_SETEQ (Some (new_signed_reg_immcope IMMC_SUFFIX_QUAD 0)) (Some (new_signed_reg_immcope IMMC_SUFFIX_LONG 0)) (Some (new_signed_reg_immcope IMMC_SUFFIX_LONG 1))] [mkls [mklv 0 2; mklv 2 2] 0 (-1); mkls [mklv 1 2] 0 (-1); mkls [] 0 (-1); mkls [] 0 (-1); mkls [] 0 (-1); mkls [] 0 (-1); mkls [] 0 (-1); mkls [] 0 (-1)].
Example test_x64gen_seteq_reg_reg_signed_ok : test_x64gen_seteq_reg_reg_signed = Ok
  [new_inst_x64 X64_INST_MOVX (Some (new_mem_x64ope 4)) (Some (new_reg_x64ope X64_SUFFIX_LONG CX_REG_ID));
   new_inst_x64 X64_INST_MOVX (Some (new_mem_x64ope 8)) (Some (new_reg_x64ope X64_SUFFIX_LONG DX_REG_ID));
   new_inst_x64 X64_INST_CMPX (Some (new_reg_x64ope X64_SUFFIX_LONG DX_REG_ID)) (Some (new_reg_x64ope X64_SUFFIX_LONG CX_REG_ID));
   new_inst_x64 X64_INST_SETE None (Some (new_reg_x64ope X64_SUFFIX_BYTE CX_REG_ID));
   new_inst_x64 X64_INST_MOVZXX (Some (new_reg_x64ope X64_SUFFIX_BYTE CX_REG_ID)) (Some (new_reg_x64ope X64_SUFFIX_QUAD CX_REG_ID))].
Proof. vm_compute. reflexivity. Qed.
(** tests/x64gen/test_bitinst.c test_x64gen_seteq_reg_int_unsigned *)
Definition test_x64gen_seteq_reg_int_unsigned := inst_test [new_inst_immc IMMC_INST_LOAD (Some (new_unsigned_reg_immcope IMMC_SUFFIX_BYTE 0)) (Some (new_mem_immcope 4)) None;
   new_inst_immc IMMC_INST_SETEQ (Some (new_unsigned_reg_immcope IMMC_SUFFIX_LONG 0)) (Some (new_unsigned_reg_immcope IMMC_SUFFIX_BYTE 0)) (Some (new_unsigned_int_immcope IMMC_SUFFIX_LONG IUInt 1))] [mkls [mklv 0 1; mklv 1 1] 0 (-1); mkls [] 0 (-1); mkls [] 0 (-1); mkls [] 0 (-1); mkls [] 0 (-1); mkls [] 0 (-1); mkls [] 0 (-1); mkls [] 0 (-1)].
Example test_x64gen_seteq_reg_int_unsigned_ok : test_x64gen_seteq_reg_int_unsigned = Ok
  [new_inst_x64 X64_INST_MOVX (Some (new_mem_x64ope 4)) (Some (new_reg_x64ope X64_SUFFIX_BYTE CX_REG_ID));
   new_inst_x64 X64_INST_MOVZXX (Some (new_reg_x64ope X64_SUFFIX_BYTE CX_REG_ID)) (Some (new_reg_x64ope X64_SUFFIX_LONG CX_REG_ID));
   new_inst_x64 X64_INST_CMPX (Some (new_unsigned_int_x64ope X64_SUFFIX_LONG IUInt 1)) (Some (new_reg_x64ope X64_SUFFIX_LONG CX_REG_ID));
   new_inst_x64 X64_INST_SETE None (Some (new_reg_x64ope X64_SUFFIX_BYTE CX_REG_ID));
   new_inst_x64 X64_INST_MOVZXX (Some (new_reg_x64ope X64_SUFFIX_BYTE CX_REG_ID)) (Some (new_reg_x64ope X64_SUFFIX_LONG CX_REG_ID))].
Proof. vm_compute. reflexivity. Qed.
(** tests/x64gen/test_bitinst.c test_x64gen_seteq_reg_reg_unsigned *)
Definition test_x64gen_seteq_reg_reg_unsigned := inst_test [new_inst_immc IMMC_INST_LOAD (Some (new_unsigned_reg_immcope IMMC_SUFFIX_LONG 0)) (Some (new_mem_immcope 4)) None;
   new_inst_immc IMMC_INST_LOAD (Some (new_unsigned_reg_immcope IMMC_SUFFIX_LONG 1)) (Some (new_mem_immcope 8)) None;
   new_inst_immc IMMC_INST_SETEQ (Some (new_unsigned_reg_immcope IMMC_SUFFIX_QUAD 0)) (Some (new_unsigned_reg_immcope IMMC_SUFFIX_LONG 0)) (Some (new_unsigned_reg_immcope IMMC_SUFFIX_LONG 1))] [mkls [mklv 0 2; mklv 2 2] 0 (-1); mkls [mklv 1 2] 0 (-1); mkls [] 0 (-1); mkls [] 0 (-1); mkls [] 0 (-1); mkls [] 0 (-1); mkls [] 0 (-1); mkls [] 0 (-1)].
Example test_x64gen_seteq_reg_reg_unsigned_ok : test_x64gen_seteq_reg_reg_unsigned = Ok
  [new_inst_x64 X64_INST_MOVX (Some (new_mem_x64ope 4)) (Some (new_reg_x64ope X64_SUFFIX_LONG CX_REG_ID));
   new_inst_x64 X64_INST_MOVX (Some (new_mem_x64ope 8)) (Some (new_reg_x64ope X64_SUFFIX_LONG DX_REG_ID));
   new_inst_x64 X64_INST_CMPX (Some (new_reg_x64ope X64_SUFFIX_LONG DX_REG_ID)) (Some (new_reg_x64ope X64_SUFFIX_LONG CX_REG_ID));
   new_inst_x64 X64_INST_SETE None (Some (new_reg_x64ope X64_SUFFIX_BYTE CX_REG_ID));
   new_inst_x64 X64_INST_MOVZXX (Some (new_reg_x64ope X64_SUFFIX_BYTE CX_REG_ID)) (Some (new_reg_x64ope X64_SUFFIX_QUAD CX_REG_ID))].
Proof. vm_compute. reflexivity. Qed.
(** tests/x64gen/test_bitinst.c test_x64gen_setneq_reg_int_signed *)
Definition test_x64gen_setneq_reg_int_signed := inst_test [new_inst_immc IMMC_INST_LOAD (Some (new_signed_reg_immcope IMMC_SUFFIX_QUAD 0)) (Some (new_mem_immcope 8)) None;
   new_inst_immc IMMC_INST_SETNEQ (Some (new_signed_reg_immcope IMMC_SUFFIX_LONG 0)) (Some (new_signed_reg_immcope IMMC_SUFFIX_QUAD 0)) (Some (new_signed_int_immcope IMMC_SUFFIX_LONG IInt 1))] [mkls [mklv 0 1; mklv 1 1] 0 (-1); mkls [] 0 (-1); mkls [] 0 (-1); mkls [] 0 (-1); mkls [] 0 (-1); mkls [] 0 (-1); mkls [] 0 (-1); mkls [] 0 (-1)].
Example test_x64gen_setneq_reg_int_signed_ok : test_x64gen_setneq_reg_int_signed = Ok
  [new_inst_x64 X64_INST_MOVX (Some (new_mem_x64ope 8)) (Some (new_reg_x64ope X64_SUFFIX_QUAD CX_REG_ID));
   new_inst_x64 X64_INST_CMPX (Some (new_signed_int_x64ope X64_SUFFIX_QUAD IInt 1)) (Some (new_reg_x64ope X64_SUFFIX_QUAD CX_REG_ID));
   new_inst_x64 X64_INST_SETNE None (Some (new_reg_x64ope X64_SUFFIX_BYTE CX_REG_ID));
   new_inst_x64 X64_INST_MOVZXX (Some (new_reg_x64ope X64_SUFFIX_BYTE CX_REG_ID)) (Some (new_reg_x64ope X64_SUFFIX_LONG CX_REG_ID))].
Proof. vm_compute. reflexivity. Qed.
(** tests/x64gen/test_bitinst.c test_x64gen_setneq_reg_reg_signed *)
Definition test_x64gen_setneq_reg_reg_signed := inst_test [new_inst_immc IMMC_INST_LOAD (Some (new_signed_reg_immcope IMMC_SUFFIX_BYTE 0)) (Some (new_mem_immcope 4)) None;
   new_inst_immc IMMC_INST_LOAD (Some (new_signed_reg_immcope IMMC_SUFFIX_LONG 1)) (Some (new_mem_immcope 8)) None;
   new_inst_immc IMMC_INST_SETNEQ (Some (new_signed_reg_immcope IMMC_SUFFIX_LONG 0)) (Some (new_signed_reg_immcope IMMC_SUFFIX_BYTE 0)) (Some (new_signed_reg_immcope IMMC_SUFFIX_LONG 1))] [mkls [mklv 0 2; mklv 2 2] 0 (-1); mkls [mklv 1 2] 0 (-1); mkls [] 0 (-1); mkls [] 0 (-1); mkls [] 0 (-1); mkls [] 0 (-1); mkls [] 0 (-1); mkls [] 0 (-1)].
Example test_x64gen_setneq_reg_reg_signed_ok : test_x64gen_setneq_reg_reg_signed = Ok
  [new_inst_x64 X64_INST_MOVX (Some (new_mem_x64ope 4)) (Some (new_reg_x64ope X64_SUFFIX_BYTE CX_REG_ID));
   new_inst_x64 X64_INST_MOVX (Some (new_mem_x64ope 8)) (Some (new_reg_x64ope X64_SUFFIX_LONG DX_REG_ID));
   new_inst_x64 X64_INST_MOVSXX (Some (new_reg_x64ope X64_SUFFIX_BYTE CX_REG_ID)) (Some (new_reg_x64ope X64_SUFFIX_LONG CX_REG_ID));
   new_inst_x64 X64_INST_CMPX (Some (new_reg_x64ope X64_SUFFIX_LONG DX_REG_ID)) (Some (new_reg_x64ope X64_SUFFIX_LONG CX_REG_ID));
   new_inst_x64 X64_INST_SETNE None (Some (new_reg_x64ope X64_SUFFIX_BYTE CX_REG_ID));
   new_inst_x64 X64_INST_MOVZXX (Some (new_reg_x64ope X64_SUFFIX_BYTE CX_REG_ID)) (Some (new_reg_x64ope X64_SUFFIX_LONG CX_REG_ID))].
Proof. vm_compute. reflexivity. Qed.
(** tests/x64gen/test_bitinst.c test_x64gen_setneq_reg_int_unsigned *)
Definition test_x64gen_setneq_reg_int_unsigned := inst_test [new_inst_immc IMMC_INST_LOAD (Some (new_unsigned_reg_immcope IMMC_SUFFIX_QUAD 0)) (Some (new_mem_immcope 8)) None;
   new_inst_immc IMMC_INST_SETNEQ (Some (new_unsigned_reg_immcope IMMC_SUFFIX_LONG 0)) (Some (new_unsigned_reg_immcope IMMC_SUFFIX_QUAD 0)) (Some (new_unsigned_int_immcope IMMC_SUFFIX_LONG IUInt 1))] [mkls [mklv 0 1; mklv 1 1] 0 (-1); mkls [] 0 (-1); mkls [] 0 (-1); mkls [] 0 (-1); mkls [] 0 (-1); mkls [] 0 (-1); mkls [] 0 (-1); mkls [] 0 (-1)].
Example test_x64gen_setneq_reg_int_unsigned_ok : test_x64gen_setneq_reg_int_unsigned = Ok
  [new_inst_x64 X64_INST_MOVX (Some (new_mem_x64ope 8)) (Some (new_reg_x64ope X64_SUFFIX_QUAD CX_REG_ID));
   new_inst_x64 X64_INST_CMPX (Some (new_unsigned_int_x64ope X64_SUFFIX_QUAD IUInt 1)) (Some (new_reg_x64ope X64_SUFFIX_QUAD CX_REG_ID));
   new_inst_x64 X64_INST_SETNE None (Some (new_reg_x64ope X64_SUFFIX_BYTE CX_REG_ID));
   new_inst_x64 X64_INST_MOVZXX (Some (new_reg_x64ope X64_SUFFIX_BYTE CX_REG_ID)) (Some (new_reg_x64ope X64_SUFFIX_LONG CX_REG_ID))].
Proof. vm_compute. reflexivity. Qed.
(** tests/x64gen/test_bitinst.c test_x64gen_setneq_reg_reg_unsigned *)
Definition test_x64gen_setneq_reg_reg_unsigned := inst_test [new_inst_immc IMMC_INST_LOAD (Some (new_unsigned_reg_immcope IMMC_SUFFIX_BYTE 0)) (Some (new_mem_immcope 4)) None;
   new_inst_immc IMMC_INST_LOAD (Some (new_unsigned_reg_immcope IMMC_SUFFIX_LONG 1)) (Some (new_mem_immcope 8)) None;
   new_inst_immc IMMC_INST_SETNEQ (Some (new_unsigned_reg_immcope IMMC_SUFFIX_LONG 0)) (Some (new_unsigned_reg_immcope IMMC_SUFFIX_BYTE 0)) (Some (new_unsigned_reg_immcope IMMC_SUFFIX_LONG 1))] [mkls [mklv 0 2; mklv 2 2] 0 (-1); mkls [mklv 1 2] 0 (-1); mkls [] 0 (-1); mkls [] 0 (-1); mkls [] 0 (-1); mkls [] 0 (-1); mkls [] 0 (-1); mkls [] 0 (-1)].
Example test_x64gen_setneq_reg_reg_unsigned_ok : test_x64gen_setneq_reg_reg_unsigned = Ok
  [new_inst_x64 X64_INST_MOVX (Some (new_mem_x64ope 4)) (Some (new_reg_x64ope X64_SUFFIX_BYTE CX_REG_ID));
   new_inst_x64 X64_INST_MOVX (Some (new_mem_x64ope 8)) (Some (new_reg_x64ope X64_SUFFIX_LONG DX_REG_ID));
   new_inst_x64 X64_INST_MOVZXX (Some (new_reg_x64ope X64_SUFFIX_BYTE CX_REG_ID)) (Some (new_reg_x64ope X64_SUFFIX_LONG CX_REG_ID));
   new_inst_x64 X64_INST_CMPX (Some (new_reg_x64ope X64_SUFFIX_LONG DX_REG_ID)) (Some (new_reg_x64ope X64_SUFFIX_LONG CX_REG_ID));
   new_inst_x64 X64_INST_SETNE None (Some (new_reg_x64ope X64_SUFFIX_BYTE CX_REG_ID));
   new_inst_x64 X64_INST_MOVZXX (Some (new_reg_x64ope X64_SUFFIX_BYTE CX_REG_ID)) (Some (new_reg_x64ope X64_SUFFIX_LONG CX_REG_ID))].
Proof. vm_compute. reflexivity. Qed.
(** tests/x64gen/test_bitinst.c test_x64gen_setgt_reg_int_signed *)
Definition test_x64gen_setgt_reg_int_signed := inst_test [new_inst_immc IMMC_INST_LOAD (Some (new_signed_reg_immcope IMMC_SUFFIX_QUAD 0)) (Some (new_mem_immcope 8)) None;
   new_inst_immc IMMC_INST_SETGT (Some (new_signed_reg_immcope IMMC_SUFFIX_LONG 0)) (Some (new_signed_reg_immcope IMMC_SUFFIX_QUAD 0)) (Some (new_signed_int_immcope IMMC_SUFFIX_LONG IInt 1))] [mkls [mklv 0 1; mklv 1 1] 0 (-1); mkls [] 0 (-1); mkls [] 0 (-1); mkls [] 0 (-1); mkls [] 0 (-1); mkls [] 0 (-1); mkls [] 0 (-1); mkls [] 0 (-1)].
Example test_x64gen_setgt_reg_int_signed_ok : test_x64gen_setgt_reg_int_signed = Ok
  [new_inst_x64 X64_INST_MOVX (Some (new_mem_x64ope 8)) (Some (new_reg_x64ope X64_SUFFIX_QUAD CX_REG_ID));
   new_inst_x64 X64_INST_CMPX (Some (new_signed_int_x64ope X64_SUFFIX_QUAD IInt 1)) (Some (new_reg_x64ope X64_SUFFIX_QUAD CX_REG_ID));
   new_inst_x64 X64_INST_SETG None (Some (new_reg_x64ope X64_SUFFIX_BYTE CX_REG_ID));
   new_inst_x64 X64_INST_MOVZXX (Some (new_reg_x64ope X64_SUFFIX_BYTE CX_REG_ID)) (Some (new_reg_x64ope X64_SUFFIX_LONG CX_REG_ID))].
Proof. vm_compute. reflexivity. Qed.
(** tests/x64gen/test_bitinst.c test_x64gen_setgt_reg_reg_signed *)
Definition test_x64gen_setgt_reg_reg_signed := inst_test [new_inst_immc IMMC_INST_LOAD (Some (new_signed_reg_immcope IMMC_SUFFIX_BYTE 0)) (Some (new_mem_immcope 4)) None;
   new_inst_immc IMMC_INST_LOAD (Some (new_signed_reg_immcope IMMC_SUFFIX_LONG 1)) (Some (new_mem_immcope 8)) None;
   new_inst_immc IMMC_INST_SETGT (Some (new_signed_reg_immcope IMMC_SUFFIX_LONG 0)) (Some (new_signed_reg_immcope IMMC_SUFFIX_BYTE 0)) (Some (new_signed_reg_immcope IMMC_SUFFIX_LONG 1))] [mkls [mklv 0 2; mklv 2 2] 0 (-1); mkls [mklv 1 2] 0 (-1); mkls [] 0 (-1); mkls [] 0 (-1); mkls [] 0 (-1); mkls [] 0 (-1); mkls [] 0 (-1); mkls [] 0 (-1)].
Example test_x64gen_setgt_reg_reg_signed_ok : test_x64gen_setgt_reg_reg_signed = Ok
  [new_inst_x64 X64_INST_MOVX (Some (new_mem_x64ope 4)) (Some (new_reg_x64ope X64_SUFFIX_BYTE CX_REG_ID));
   new_inst_x64 X64_INST_MOVX (Some (new_mem_x64ope 8)) (Some (new_reg_x64ope X64_SUFFIX_LONG DX_REG_ID));
   new_inst_x64 X64_INST_MOVSXX (Some (new_reg_x64ope X64_SUFFIX_BYTE CX_REG_ID)) (Some (new_reg_x64ope X64_SUFFIX_LONG CX_REG_ID));
   new_inst_x64 X64_INST_CMPX (Some (new_reg_x64ope X64_SUFFIX_LONG DX_REG_ID)) (Some (new_reg_x64ope X64_SUFFIX_LONG CX_REG_ID));
   new_inst_x64 X64_INST_SETG None (Some (new_reg_x64ope X64_SUFFIX_BYTE CX_REG_ID));
   new_inst_x64 X64_INST_MOVZXX (Some (new_reg_x64ope X64_SUFFIX_BYTE CX_REG_ID)) (Some (new_reg_x64ope X64_SUFFIX_LONG CX_REG_ID))].
Proof. vm_compute. reflexivity. Qed.
(** tests/x64gen/test_bitinst.c test_x64gen_setgt_reg_int_unsigned *)
Definition test_x64gen_setgt_reg_int_unsigned := inst_test [new_inst_immc IMMC_INST_LOAD (Some (new_unsigned_reg_immcope IMMC_SUFFIX_QUAD 0)) (Some (new_mem_immcope 8)) None;
   new_inst_immc IMMC_INST_SETGT (Some (new_unsigned_reg_immcope IMMC_SUFFIX_LONG 0)) (Some (new_unsigned_reg_immcope IMMC_SUFFIX_QUAD 0)) (Some (new_unsigned_int_immcope IMMC_SUFFIX_LONG IUInt 1))] [mkls [mklv 0 1; mklv 1 1] 0 (-1); mkls [] 0 (-1); mkls [] 0 (-1); mkls [] 0 (-1); mkls [] 0 (-1); mkls [] 0 (-1); mkls [] 0 (-1); mkls [] 0 (-1)].
Example test_x64gen_setgt_reg_int_unsigned_ok : test_x64gen_setgt_reg_int_unsigned = Ok
  [new_inst_x64 X64_INST_MOVX (Some (new_mem_x64ope 8)) (Some (new_reg_x64ope X64_SUFFIX_QUAD CX_REG_ID));
   new_inst_x64 X64_INST_CMPX (Some (new_unsigned_int_x64ope X64_SUFFIX_QUAD IUInt 1)) (Some (new_reg_x64ope X64_SUFFIX_QUAD CX_REG_ID));
   new_inst_x64 X64_INST_SETA None (Some (new_reg_x64ope X64_SUFFIX_BYTE CX_REG_ID));
   new_inst_x64 X64_INST_MOVZXX (Some (new_reg_x64ope X64_SUFFIX_BYTE CX_REG_ID)) (Some (new_reg_x64ope X64_SUFFIX_LONG CX_REG_ID))].
Proof. vm_compute. reflexivity. Qed.
(** tests/x64gen/test_bitinst.c test_x64gen_setgt_reg_reg_unsigned *)
Definition test_x64gen_setgt_reg_reg_unsigned := inst_test [new_inst_immc IMMC_INST_LOAD (Some (new_unsigned_reg_immcope IMMC_SUFFIX_BYTE 0)) (Some (new_mem_immcope 4)) None;
   new_inst_immc IMMC_INST_LOAD (Some (new_unsigned_reg_immcope IMMC_SUFFIX_LONG 1)) (Some (new_mem_immcope 8)) None;
   new_inst_immc IMMC_INST_SETGT (Some (new_unsigned_reg_immcope IMMC_SUFFIX_LONG 0)) (Some (new_unsigned_reg_immcope IMMC_SUFFIX_BYTE 0)) (Some (new_unsigned_reg_immcope IMMC_SUFFIX_LONG 1))] [mkls [mklv 0 2; mklv 2 2] 0 (-1); mkls [mklv 1 2] 0 (-1); mkls [] 0 (-1); mkls [] 0 (-1); mkls [] 0 (-1); mkls [] 0 (-1); mkls [] 0 (-1); mkls [] 0 (-1)].
Example test_x64gen_setgt_reg_reg_unsigned_ok : test_x64gen_setgt_reg_reg_unsigned = Ok
  [new_inst_x64 X64_INST_MOVX (Some (new_mem_x64ope 4)) (Some (new_reg_x64ope X64_SUFFIX_BYTE CX_REG_ID));
   new_inst_x64 X64_INST_MOVX (Some (new_mem_x64ope 8)) (Some (new_reg_x64ope X64_SUFFIX_LONG DX_REG_ID));
   new_inst_x64 X64_INST_MOVZXX (Some (new_reg_x64ope X64_SUFFIX_BYTE CX_REG_ID)) (Some (new_reg_x64ope X64_SUFFIX_LONG CX_REG_ID));
   new_inst_x64 X64_INST_CMPX (Some (new_reg_x64ope X64_SUFFIX_LONG DX_REG_ID)) (Some (new_reg_x64ope X64_SUFFIX_LONG CX_REG_ID));
   new_inst_x64 X64_INST_SETA None (Some (new_reg_x64ope X64_SUFFIX_BYTE CX_REG_ID));
   new_inst_x64 X64_INST_MOVZXX (Some (new_reg_x64ope X64_SUFFIX_BYTE CX_REG_ID)) (Some (new_reg_x64ope X64_SUFFIX_LONG CX_REG_ID))].
Proof. vm_compute. reflexivity. Qed.
(** tests/x64gen/test_bitinst.c test_x64gen_setgeq_reg_int_signed *)
Definition test_x64gen_setgeq_reg_int_signed := inst_test [new_inst_immc IMMC_INST_LOAD (Some (new_signed_reg_immcope IMMC_SUFFIX_QUAD 0)) (Some (new_mem_immcope 8)) None;
   new_inst_immc IMMC_INST_SETGEQ (Some (new_signed_reg_immcope IMMC_SUFFIX_LONG 0)) (Some (new_signed_reg_immcope IMMC_SUFFIX_QUAD 0)) (Some (new_signed_int_immcope IMMC_SUFFIX_LONG IInt 1))] [mkls [mklv 0 1; mklv 1 1] 0 (-1); mkls [] 0 (-1); mkls [] 0 (-1); mkls [] 0 (-1); mkls [] 0 (-1); mkls [] 0 (-1); mkls [] 0 (-1); mkls [] 0 (-1)].
Example test_x64gen_setgeq_reg_int_signed_ok : test_x64gen_setgeq_reg_int_signed = Ok
  [new_inst_x64 X64_INST_MOVX (Some (new_mem_x64ope 8)) (Some (new_reg_x64ope X64_SUFFIX_QUAD CX_REG_ID));
   new_inst_x64 X64_INST_CMPX (Some (new_signed_int_x64ope X64_SUFFIX_QUAD IInt 1)) (Some (new_reg_x64ope X64_SUFFIX_QUAD CX_REG_ID));
   new_inst_x64 X64_INST_SETGE None (Some (new_reg_x64ope X64_SUFFIX_BYTE CX_REG_ID));
   new_inst_x64 X64_INST_MOVZXX (Some (new_reg_x64ope X64_SUFFIX_BYTE CX_REG_ID)) (Some (new_reg_x64ope X64_SUFFIX_LONG CX_REG_ID))].
Proof. vm_compute. reflexivity. Qed.
(** tests/x64gen/test_bitinst.c test_x64gen_setgeq_reg_reg_signed *)
Definition test_x64gen_setgeq_reg_reg_signed := inst_test [new_inst_immc IMMC_INST_LOAD (Some (new_signed_reg_immcope IMMC_SUFFIX_BYTE 0)) (Some (new_mem_immcope 4)) None;
   new_inst_immc IMMC_INST_LOAD (Some (new_signed_reg_immcope IMMC_SUFFIX_LONG 1)) (Some (new_mem_immcope 8)) None;
   new_inst_immc IMMC_INST_SETGEQ (Some (new_signed_reg_immcope IMMC_SUFFIX_LONG 0)) (Some (new_signed_reg_immcope IMMC_SUFFIX_BYTE 0)) (Some (new_signed_reg_immcope IMMC_SUFFIX_LONG 1))] [mkls [mklv 0 2; mklv 2 2] 0 (-1); mkls [mklv 1 2] 0 (-1); mkls [] 0 (-1); mkls [] 0 (-1); mkls [] 0 (-1); mkls [] 0 (-1); mkls [] 0 (-1); mkls [] 0 (-1)].
Example test_x64gen_setgeq_reg_reg_signed_ok : test_x64gen_setgeq_reg_reg_signed = Ok
  [new_inst_x64 X64_INST_MOVX (Some (new_mem_x64ope 4)) (Some (new_reg_x64ope X64_SUFFIX_BYTE CX_REG_ID));
   new_inst_x64 X64_INST_MOVX (Some (new_mem_x64ope 8)) (Some (new_reg_x64ope X64_SUFFIX_LONG DX_REG_ID));
   new_inst_x64 X64_INST_MOVSXX (Some (new_reg_x64ope X64_SUFFIX_BYTE CX_REG_ID)) (Some (new_reg_x64ope X64_SUFFIX_LONG CX_REG_ID));
   new_inst_x64 X64_INST_CMPX (Some (new_reg_x64ope X64_SUFFIX_LONG DX_REG_ID)) (Some (new_reg_x64ope X64_SUFFIX_LONG CX_REG_ID));
   new_inst_x64 X64_INST_SETGE None (Some (new_reg_x64ope X64_SUFFIX_BYTE CX_REG_ID));
   new_inst_x64 X64_INST_MOVZXX (Some (new_reg_x64ope X64_SUFFIX_BYTE CX_REG_ID)) (Some (new_reg_x64ope X64_SUFFIX_LONG CX_REG_ID))].
Proof. vm_compute. reflexivity. Qed.
(** tests/x64gen/test_bitinst.c test_x64gen_setgeq_reg_int_unsigned *)
Definition test_x64gen_setgeq_reg_int_unsigned := inst_test [new_inst_immc IMMC_INST_LOAD (Some (new_unsigned_reg_immcope IMMC_SUFFIX_QUAD 0)) (Some (new_mem_immcope 8)) None;
   new_inst_immc IMMC_INST_SETGEQ (Some (new_unsigned_reg_immcope IMMC_SUFFIX_LONG 0)) (Some (new_unsigned_reg_immcope IMMC_SUFFIX_QUAD 0)) (Some (new_unsigned_int_immcope IMMC_SUFFIX_LONG IUInt 1))] [mkls [mklv 0 1; mklv 1 1] 0 (-1); mkls [] 0 (-1); mkls [] 0 (-1); mkls [] 0 (-1); mkls [] 0 (-1); mkls [] 0 (-1); mkls [] 0 (-1); mkls [] 0 (-1)].
Example test_x64gen_setgeq_reg_int_unsigned_ok : test_x64gen_setgeq_reg_int_unsigned = Ok
  [new_inst_x64 X64_INST_MOVX (Some (new_mem_x64ope 8)) (Some (new_reg_x64ope X64_SUFFIX_QUAD CX_REG_ID));
   new_inst_x64 X64_INST_CMPX (Some (new_unsigned_int_x64ope X64_SUFFIX_QUAD IUInt 1)) (Some (new_reg_x64ope X64_SUFFIX_QUAD CX_REG_ID));
   new_inst_x64 X64_INST_SETAE None (Some (new_reg_x64ope X64_SUFFIX_BYTE CX_REG_ID));
   new_inst_x64 X64_INST_MOVZXX (Some (new_reg_x64ope X64_SUFFIX_BYTE CX_REG_ID)) (Some (new_reg_x64ope X64_SUFFIX_LONG CX_REG_ID))].
Proof. vm_compute. reflexivity. Qed.
(** tests/x64gen/test_bitinst.c test_x64gen_setgeq_reg_reg_unsigned *)
Definition test_x64gen_setgeq_reg_reg_unsigned := inst_test [new_inst_immc IMMC_INST_LOAD (Some (new_unsigned_reg_immcope IMMC_SUFFIX_BYTE 0)) (Some (new_mem_immcope 4)) None;
   new_inst_immc IMMC_INST_LOAD (Some (new_unsigned_reg_immcope IMMC_SUFFIX_LONG 1)) (Some (new_mem_immcope 8)) None;
   new_inst_immc IMMC_INST_SETGEQ (Some (new_unsigned_reg_immcope IMMC_SUFFIX_LONG 0)) (Some (new_unsigned_reg_immcope IMMC_SUFFIX_BYTE 0)) (Some (new_unsigned_reg_immcope IMMC_SUFFIX_LONG 1))] [mkls [mklv 0 2; mklv 2 2] 0 (-1); mkls [mklv 1 2] 0 (-1); mkls [] 0 (-1); mkls [] 0 (-1); mkls [] 0 (-1); mkls [] 0 (-1); mkls [] 0 (-1); mkls [] 0 (-1)].
Example test_x64gen_setgeq_reg_reg_unsigned_ok : test_x64gen_setgeq_reg_reg_unsigned = Ok
  [new_inst_x64 X64_INST_MOVX (Some (new_mem_x64ope 4)) (Some (new_reg_x64ope X64_SUFFIX_BYTE CX_REG_ID));
   new_inst_x64 X64_INST_MOVX (Some (new_mem_x64ope 8)) (Some (new_reg_x64ope X64_SUFFIX_LONG DX_REG_ID));
   new_inst_x64 X64_INST_MOVZXX (Some (new_reg_x64ope X64_SUFFIX_BYTE CX_REG_ID)) (Some (new_reg_x64ope X64_SUFFIX_LONG CX_REG_ID));
   new_inst_x64 X64_INST_CMPX (Some (new_reg_x64ope X64_SUFFIX_LONG DX_REG_ID)) (Some (new_reg_x64ope X64_SUFFIX_LONG CX_REG_ID));
   new_inst_x64 X64_INST_SETAE None (Some (new_reg_x64ope X64_SUFFIX_BYTE CX_REG_ID));
   new_inst_x64 X64_INST_MOVZXX (Some (new_reg_x64ope X64_SUFFIX_BYTE CX_REG_ID)) (Some (new_reg_x64ope X64_SUFFIX_LONG CX_REG_ID))].
Proof. vm_compute. reflexivity. Qed.
(** tests/x64gen/test_bitinst.c test_x64gen_setlt_reg_int_signed *)
Definition test_x64gen_setlt_reg_int_signed := inst_test [new_inst_immc IMMC_INST_LOAD (Some (new_signed_reg_immcope IMMC_SUFFIX_QUAD 0)) (Some (new_mem_immcope 8)) None;
   new_inst_immc IMMC_INST_SETLT (Some (new_signed_reg_immcope IMMC_SUFFIX_LONG 0)) (Some (new_signed_reg_immcope IMMC_SUFFIX_QUAD 0)) (Some (new_signed_int_immcope IMMC_SUFFIX_LONG IInt 1))] [mkls [mklv 0 1; mklv 1 1] 0 (-1); mkls [] 0 (-1); mkls [] 0 (-1); mkls [] 0 (-1); mkls [] 0 (-1); mkls [] 0 (-1); mkls [] 0 (-1); mkls [] 0 (-1)].
Example test_x64gen_setlt_reg_int_signed_ok : test_x64gen_setlt_reg_int_signed = Ok
  [new_inst_x64 X64_INST_MOVX (Some (new_mem_x64ope 8)) (Some (new_reg_x64ope X64_SUFFIX_QUAD CX_REG_ID));
   new_inst_x64 X64_INST_CMPX (Some (new_signed_int_x64ope X64_SUFFIX_QUAD IInt 1)) (Some (new_reg_x64ope X64_SUFFIX_QUAD CX_REG_ID));
   new_inst_x64 X64_INST_SETL None (Some (new_reg_x64ope X64_SUFFIX_BYTE CX_REG_ID));
   new_inst_x64 X64_INST_MOVZXX (Some (new_reg_x64ope X64_SUFFIX_BYTE CX_REG_ID)) (Some (new_reg_x64ope X64_SUFFIX_LONG CX_REG_ID))].
Proof. vm_compute. reflexivity. Qed.
(** tests/x64gen/test_bitinst.c test_x64gen_setlt_reg_reg_signed *)
Definition test_x64gen_setlt_reg_reg_signed := inst_test [new_inst_immc IMMC_INST_LOAD (Some (new_signed_reg_immcope IMMC_SUFFIX_BYTE 0)) (Some (new_mem_immcope 4)) None;
   new_inst_immc IMMC_INST_LOAD (Some (new_signed_reg_immcope IMMC_SUFFIX_LONG 1)) (Some (new_mem_immcope 8)) None;
   new_inst_immc IMMC_INST_SETLT (Some (new_signed_reg_immcope IMMC_SUFFIX_LONG 0)) (Some (new_signed_reg_immcope IMMC_SUFFIX_BYTE 0)) (Some (new_signed_reg_immcope IMMC_SUFFIX_LONG 1))] [mkls [mklv 0 2; mklv 2 2] 0 (-1); mkls [mklv 1 2] 0 (-1); mkls [] 0 (-1); mkls [] 0 (-1); mkls [] 0 (-1); mkls [] 0 (-1); mkls [] 0 (-1); mkls [] 0 (-1)].
Example test_x64gen_setlt_reg_reg_signed_ok : test_x64gen_setlt_reg_reg_signed = Ok
  [new_inst_x64 X64_INST_MOVX (Some (new_mem_x64ope 4)) (Some (new_reg_x64ope X64_SUFFIX_BYTE CX_REG_ID));
   new_inst_x64 X64_INST_MOVX (Some (new_mem_x64ope 8)) (Some (new_reg_x64ope X64_SUFFIX_LONG DX_REG_ID));
   new_inst_x64 X64_INST_MOVSXX (Some (new_reg_x64ope X64_SUFFIX_BYTE CX_REG_ID)) (Some (new_reg_x64ope X64_SUFFIX_LONG CX_REG_ID));
   new_inst_x64 X64_INST_CMPX (Some (new_reg_x64ope X64_SUFFIX_LONG DX_REG_ID)) (Some (new_reg_x64ope X64_SUFFIX_LONG CX_REG_ID));
   new_inst_x64 X64_INST_SETL None (Some (new_reg_x64ope X64_SUFFIX_BYTE CX_REG_ID));
   new_inst_x64 X64_INST_MOVZXX (Some (new_reg_x64ope X64_SUFFIX_BYTE CX_REG_ID)) (Some (new_reg_x64ope X64_SUFFIX_LONG CX_REG_ID))].
Proof. vm_compute. reflexivity. Qed.
(** tests/x64gen/test_bitinst.c test_x64gen_setlt_reg_int_unsigned *)
Definition test_x64gen_setlt_reg_int_unsigned := inst_test [new_inst_immc IMMC_INST_LOAD (Some (new_unsigned_reg_immcope IMMC_SUFFIX_QUAD 0)) (Some (new_mem_immcope 8)) None;
   new_inst_immc IMMC_INST_SETLT (Some (new_unsigned_reg_immcope IMMC_SUFFIX_LONG 0)) (Some (new_unsigned_reg_immcope IMMC_SUFFIX_QUAD 0)) (Some (new_unsigned_int_immcope IMMC_SUFFIX_LONG IUInt 1))] [mkls [mklv 0 1; mklv 1 1] 0 (-1); mkls [] 0 (-1); mkls [] 0 (-1); mkls [] 0 (-1); mkls [] 0 (-1); mkls [] 0 (-1); mkls [] 0 (-1); mkls [] 0 (-1)].
Example test_x64gen_setlt_reg_int_unsigned_ok : test_x64gen_setlt_reg_int_unsigned = Ok
  [new_inst_x64 X64_INST_MOVX (Some (new_mem_x64ope 8)) (Some (new_reg_x64ope X64_SUFFIX_QUAD CX_REG_ID));
   new_inst_x64 X64_INST_CMPX (Some (new_unsigned_int_x64ope X64_SUFFIX_QUAD IUInt 1)) (Some (new_reg_x64ope X64_SUFFIX_QUAD CX_REG_ID));
   new_inst_x64 X64_INST_SETB None (Some (new_reg_x64ope X64_SUFFIX_BYTE CX_REG_ID));
   new_inst_x64 X64_INST_MOVZXX (Some (new_reg_x64ope X64_SUFFIX_BYTE CX_REG_ID)) (Some (new_reg_x64ope X64_SUFFIX_LONG CX_REG_ID))].
Proof. vm_compute. reflexivity. Qed.
(** tests/x64gen/test_bitinst.c test_x64gen_setlt_reg_reg_unsigned *)
Definition test_x64gen_setlt_reg_reg_unsigned := inst_test [new_inst_immc IMMC_INST_LOAD (Some (new_unsigned_reg_immcope IMMC_SUFFIX_BYTE 0)) (Some (new_mem_immcope 4)) None;
   new_inst_immc IMMC_INST_LOAD (Some (new_unsigned_reg_immcope IMMC_SUFFIX_LONG 1)) (Some (new_mem_immcope 8)) None;
   new_inst_immc IMMC_INST_SETLT (Some (new_unsigned_reg_immcope IMMC_SUFFIX_LONG 0)) (Some (new_unsigned_reg_immcope IMMC_SUFFIX_BYTE 0)) (Some (new_unsigned_reg_immcope IMMC_SUFFIX_LONG 1))] [mkls [mklv 0 2; mklv 2 2] 0 (-1); mkls [mklv 1 2] 0 (-1); mkls [] 0 (-1); mkls [] 0 (-1); mkls [] 0 (-1); mkls [] 0 (-1); mkls [] 0 (-1); mkls [] 0 (-1)].
Example test_x64gen_setlt_reg_reg_unsigned_ok : test_x64gen_setlt_reg_reg_unsigned = Ok
  [new_inst_x64 X64_INST_MOVX (Some (new_mem_x64ope 4)) (Some (new_reg_x64ope X64_SUFFIX_BYTE CX_REG_ID));
   new_inst_x64 X64_INST_MOVX (Some (new_mem_x64ope 8)) (Some (new_reg_x64ope X64_SUFFIX_LONG DX_REG_ID));
   new_inst_x64 X64_INST_MOVZXX (Some (new_reg_x64ope X64_SUFFIX_BYTE CX_REG_ID)) (Some (new_reg_x64ope X64_SUFFIX_LONG CX_REG_ID));
   new_inst_x64 X64_INST_CMPX (Some (new_reg_x64ope X64_SUFFIX_LONG DX_REG_ID)) (Some (new_reg_x64ope X64_SUFFIX_LONG CX_REG_ID));
   new_inst_x64 X64_INST_SETB None (Some (new_reg_x64ope X64_SUFFIX_BYTE CX_REG_ID));
   new_inst_x64 X64_INST_MOVZXX (Some (new_reg_x64ope X64_SUFFIX_BYTE CX_REG_ID)) (Some (new_reg_x64ope X64_SUFFIX_LONG CX_REG_ID))].
Proof. vm_compute. reflexivity. Qed.
(** tests/x64gen/test_bitinst.c test_x64gen_setleq_reg_int_signed *)
Definition test_x64gen_setleq_reg_int_signed := inst_test [new_inst_immc IMMC_INST_LOAD (Some (new_signed_reg_immcope IMMC_SUFFIX_QUAD 0)) (Some (new_mem_immcope 8)) None;
   new_inst_immc IMMC_INST_SETLEQ (Some (new_signed_reg_immcope IMMC_SUFFIX_LONG 0)) (Some (new_signed_reg_immcope IMMC_SUFFIX_QUAD 0)) (Some (new_signed_int_immcope IMMC_SUFFIX_LONG IInt 1))] [mkls [mklv 0 1; mklv 1 1] 0 (-1); mkls [] 0 (-1); mkls [] 0 (-1); mkls [] 0 (-1); mkls [] 0 (-1); mkls [] 0 (-1); mkls [] 0 (-1); mkls [] 0 (-1)].
Example test_x64gen_setleq_reg_int_signed_ok : test_x64gen_setleq_reg_int_signed = Ok
  [new_inst_x64 X64_INST_MOVX (Some (new_mem_x64ope 8)) (Some (new_reg_x64ope X64_SUFFIX_QUAD CX_REG_ID));
   new_inst_x64 X64_INST_CMPX (Some (new_signed_int_x64ope X64_SUFFIX_QUAD IInt 1)) (Some (new_reg_x64ope X64_SUFFIX_QUAD CX_REG_ID));
   new_inst_x64 X64_INST_SETLE None (Some (new_reg_x64ope X64_SUFFIX_BYTE CX_REG_ID));
   new_inst_x64 X64_INST_MOVZXX (Some (new_reg_x64ope X64_SUFFIX_BYTE CX_REG_ID)) (Some (new_reg_x64ope X64_SUFFIX_LONG CX_REG_ID))].
Proof. vm_compute. reflexivity. Qed.
(** tests/x64gen/test_bitinst.c test_x64gen_setleq_reg_reg_signed *)
Definition test_x64gen_setleq_reg_reg_signed := inst_test [new_inst_immc IMMC_INST_LOAD (Some (new_signed_reg_immcope IMMC_SUFFIX_BYTE 0)) (Some (new_mem_immcope 4)) None;
   new_inst_immc IMMC_INST_LOAD (Some (new_signed_reg_immcope IMMC_SUFFIX_LONG 1)) (Some (new_mem_immcope 8)) None;
   new_inst_immc IMMC_INST_SETLEQ (Some (new_signed_reg_immcope IMMC_SUFFIX_LONG 0)) (Some (new_signed_reg_immcope IMMC_SUFFIX_BYTE 0)) (Some (new_signed_reg_immcope IMMC_SUFFIX_LONG 1))] [mkls [mklv 0 2; mklv 2 2] 0 (-1); mkls [mklv 1 2] 0 (-1); mkls [] 0 (-1); mkls [] 0 (-1); mkls [] 0 (-1); mkls [] 0 (-1); mkls [] 0 (-1); mkls [] 0 (-1)].
Example test_x64gen_setleq_reg_reg_signed_ok : test_x64gen_setleq_reg_reg_signed = Ok
  [new_inst_x64 X64_INST_MOVX (Some (new_mem_x64ope 4)) (Some (new_reg_x64ope X64_SUFFIX_BYTE CX_REG_ID));
   new_inst_x64 X64_INST_MOVX (Some (new_mem_x64ope 8)) (Some (new_reg_x64ope X64_SUFFIX_LONG DX_REG_ID));
   new_inst_x64 X64_INST_MOVSXX (Some (new_reg_x64ope X64_SUFFIX_BYTE CX_REG_ID)) (Some (new_reg_x64ope X64_SUFFIX_LONG CX_REG_ID));
   new_inst_x64 X64_INST_CMPX (Some (new_reg_x64ope X64_SUFFIX_LONG DX_REG_ID)) (Some (new_reg_x64ope X64_SUFFIX_LONG CX_REG_ID));
   new_inst_x64 X64_INST_SETLE None (Some (new_reg_x64ope X64_SUFFIX_BYTE CX_REG_ID));
   new_inst_x64 X64_INST_MOVZXX (Some (new_reg_x64ope X64_SUFFIX_BYTE CX_REG_ID)) (Some (new_reg_x64ope X64_SUFFIX_LONG CX_REG_ID))].
Proof. vm_compute. reflexivity. Qed.
(** tests/x64gen/test_bitinst.c test_x64gen_setleq_reg_int_unsigned *)
Definition test_x64gen_setleq_reg_int_unsigned := inst_test [new_inst_immc IMMC_INST_LOAD (Some (new_unsigned_reg_immcope IMMC_SUFFIX_QUAD 0)) (Some (new_mem_immcope 8)) None;
   new_inst_immc IMMC_INST_SETLEQ (Some (new_unsigned_reg_immcope IMMC_SUFFIX_LONG 0)) (Some (new_unsigned_reg_immcope IMMC_SUFFIX_QUAD 0)) (Some (new_unsigned_int_immcope IMMC_SUFFIX_LONG IUInt 1))] [mkls [mklv 0 1; mklv 1 1] 0 (-1); mkls [] 0 (-1); mkls [] 0 (-1); mkls [] 0 (-1); mkls [] 0 (-1); mkls [] 0 (-1); mkls [] 0 (-1); mkls [] 0 (-1)].
Example test_x64gen_setleq_reg_int_unsigned_ok : test_x64gen_setleq_reg_int_unsigned = Ok
  [new_inst_x64 X64_INST_MOVX (Some (new_mem_x64ope 8)) (Some (new_reg_x64ope X64_SUFFIX_QUAD CX_REG_ID));
   new_inst_x64 X64_INST_CMPX (Some (new_unsigned_int_x64ope X64_SUFFIX_QUAD IUInt 1)) (Some (new_reg_x64ope X64_SUFFIX_QUAD CX_REG_ID));
   new_inst_x64 X64_INST_SETBE None (Some (new_reg_x64ope X64_SUFFIX_BYTE CX_REG_ID));
   new_inst_x64 X64_INST_MOVZXX (Some (new_reg_x64ope X64_SUFFIX_BYTE CX_REG_ID)) (Some (new_reg_x64ope X64_SUFFIX_LONG CX_REG_ID))].
Proof. vm_compute. reflexivity. Qed.
(** tests/x64gen/test_bitinst.c test_x64gen_setleq_reg_reg_unsigned *)
Definition test_x64gen_setleq_reg_reg_unsigned := inst_test [new_inst_immc IMMC_INST_LOAD (Some (new_unsigned_reg_immcope IMMC_SUFFIX_BYTE 0)) (Some (new_mem_immcope 4)) None;
   new_inst_immc IMMC_INST_LOAD (Some (new_unsigned_reg_immcope IMMC_SUFFIX_LONG 1)) (Some (new_mem_immcope 8)) None;
   new_inst_immc IMMC_INST_SETLEQ (Some (new_unsigned_reg_immcope IMMC_SUFFIX_LONG 0)) (Some (new_unsigned_reg_immcope IMMC_SUFFIX_BYTE 0)) (Some (new_unsigned_reg_immcope IMMC_SUFFIX_LONG 1))] [mkls [mklv 0 2; mklv 2 2] 0 (-1); mkls [mklv 1 2] 0 (-1); mkls [] 0 (-1); mkls [] 0 (-1); mkls [] 0 (-1); mkls [] 0 (-1); mkls [] 0 (-1); mkls [] 0 (-1)].
Example test_x64gen_setleq_reg_reg_unsigned_ok : test_x64gen_setleq_reg_reg_unsigned = Ok
  [new_inst_x64 X64_INST_MOVX (Some (new_mem_x64ope 4)) (Some (new_reg_x64ope X64_SUFFIX_BYTE CX_REG_ID));
   new_inst_x64 X64_INST_MOVX (Some (new_mem_x64ope 8)) (Some (new_reg_x64ope X64_SUFFIX_LONG DX_REG_ID));
   new_inst_x64 X64_INST_MOVZXX (Some (new_reg_x64ope X64_SUFFIX_BYTE CX_REG_ID)) (Some (new_reg_x64ope X64_SUFFIX_LONG CX_REG_ID));
   new_inst_x64 X64_INST_CMPX (Some (new_reg_x64ope X64_SUFFIX_LONG DX_REG_ID)) (Some (new_reg_x64ope X64_SUFFIX_LONG CX_REG_ID));
   new_inst_x64 X64_INST_SETBE None (Some (new_reg_x64ope X64_SUFFIX_BYTE CX_REG_ID));
   new_inst_x64 X64_INST_MOVZXX (Some (new_reg_x64ope X64_SUFFIX_BYTE CX_REG_ID)) (Some (new_reg_x64ope X64_SUFFIX_LONG CX_REG_ID))].
Proof. vm_compute. reflexivity. Qed.
(** tests/x64gen/test_ctrlinst.c test_x64gen_jmp *)
Definition test_x64gen_jmp := inst_test [new_inst_immc IMMC_INST_JMP (Some (new_label_immcope [76; 65; 66; 69; 76])) None None] [mkls [] 0 (-1); mkls [] 0 (-1); mkls [] 0 (-1); mkls [] 0 (-1); mkls [] 0 (-1); mkls [] 0 (-1); mkls [] 0 (-1); mkls [] 0 (-1)].
Example test_x64gen_jmp_ok : test_x64gen_jmp = Ok
  [new_inst_x64 X64_INST_JMP None (Some (new_jlabel_x64ope [76; 65; 66; 69; 76]))].
Proof. vm_compute. reflexivity. Qed.
(** tests/x64gen/test_ctrlinst.c test_x64gen_jeq_reg_int_signed *)
Definition test_x64gen_jeq_reg_int_signed := inst_test [new_inst_immc IMMC_INST_LOAD (Some (new_signed_reg_immcope IMMC_SUFFIX_BYTE 0)) (Some (new_mem_immcope 4)) None;
   new_inst_immc IMMC_INST_JEQ (Some (new_label_immcope [76; 65; 66; 69; 76])) (Some (new_signed_reg_immcope IMMC_SUFFIX_BYTE 0)) (Some (new_signed_int_immcope IMMC_SUFFIX_LONG IInt 4))] [mkls [mklv 0 1] 0 (-1); mkls [] 0 (-1); mkls [] 0 (-1); mkls [] 0 (-1); mkls [] 0 (-1); mkls [] 0 (-1); mkls [] 0 (-1); mkls [] 0 (-1)].
Example test_x64gen_jeq_reg_int_signed_ok : test_x64gen_jeq_reg_int_signed = Ok
  [new_inst_x64 X64_INST_MOVX (Some (new_mem_x64ope 4)) (Some (new_reg_x64ope X64_SUFFIX_BYTE CX_REG_ID));
   new_inst_x64 X64_INST_MOVSXX (Some (new_reg_x64ope X64_SUFFIX_BYTE CX_REG_ID)) (Some (new_reg_x64ope X64_SUFFIX_LONG CX_REG_ID));
   new_inst_x64 X64_INST_CMPX (Some (new_signed_int_x64ope X64_SUFFIX_LONG IInt 4)) (Some (new_reg_x64ope X64_SUFFIX_LONG CX_REG_ID));
   new_inst_x64 X64_INST_JE None (Some (new_jlabel_x64ope [76; 65; 66; 69; 76]))].
Proof. vm_compute. reflexivity. Qed.
(** tests/x64gen/test_ctrlinst.c test_x64gen_jeq_reg_reg_singed *)
Definition test_x64gen_jeq_reg_reg_singed := inst_test [new_inst_immc IMMC_INST_LOAD (Some (new_signed_reg_immcope IMMC_SUFFIX_LONG 0)) (Some (new_mem_immcope 4)) None;
   new_inst_immc IMMC_INST_LOAD (Some (new_signed_reg_immcope IMMC_SUFFIX_LONG 1)) (Some (new_mem_immcope 8)) None;
   new_inst_immc IMMC_INST_JEQ (Some (new_label_immcope [76; 65; 66; 69; 76])) (Some (new_signed_reg_immcope IMMC_SUFFIX_LONG 0)) (Some (new_signed_reg_immcope IMMC_SUFFIX_LONG 1))] [mkls [mklv 0 2] 0 (-1); mkls [mklv 1 2] 0 (-1); mkls [] 0 (-1); mkls [] 0 (-1); mkls [] 0 (-1); mkls [] 0 (-1); mkls [] 0 (-1); mkls [] 0 (-1)].
Example test_x64gen_jeq_reg_reg_singed_ok : test_x64gen_jeq_reg_reg_singed = Ok
  [new_inst_x64 X64_INST_MOVX (Some (new_mem_x64ope 4)) (Some (new_reg_x64ope X64_SUFFIX_LONG CX_REG_ID));
   new_inst_x64 X64_INST_MOVX (Some (new_mem_x64ope 8)) (Some (new_reg_x64ope X64_SUFFIX_LONG DX_REG_ID));
   new_inst_x64 X64_INST_CMPX (Some (new_reg_x64ope X64_SUFFIX_LONG DX_REG_ID)) (Some (new_reg_x64ope X64_SUFFIX_LONG CX_REG_ID));
   new_inst_x64 X64_INST_JE None (Some (new_jlabel_x64ope [76; 65; 66; 69; 76]))].
Proof. vm_compute. reflexivity. Qed.
(** tests/x64gen/test_ctrlinst.c test_x64gen_jeq_reg_int_unsigned *)
Definition test_x64gen_jeq_reg_int_unsigned := inst_test [new_inst_immc IMMC_INST_LOAD (Some (new_unsigned_reg_immcope IMMC_SUFFIX_BYTE 0)) (Some (new_mem_immcope 4)) None;
   new_inst_immc IMMC_INST_JEQ (Some (new_label_immcope [76; 65; 66; 69; 76])) (Some (new_unsigned_reg_immcope IMMC_SUFFIX_BYTE 0)) (Some (new_unsigned_int_immcope IMMC_SUFFIX_LONG IUInt 4))] [mkls [mklv 0 1] 0 (-1); mkls [] 0 (-1); mkls [] 0 (-1); mkls [] 0 (-1); mkls [] 0 (-1); mkls [] 0 (-1); mkls [] 0 (-1); mkls [] 0 (-1)].
Example test_x64gen_jeq_reg_int_unsigned_ok : test_x64gen_jeq_reg_int_unsigned = Ok
  [new_inst_x64 X64_INST_MOVX (Some (new_mem_x64ope 4)) (Some (new_reg_x64ope X64_SUFFIX_BYTE CX_REG_ID));
   new_inst_x64 X64_INST_MOVZXX (Some (new_reg_x64ope X64_SUFFIX_BYTE CX_REG_ID)) (Some (new_reg_x64ope X64_SUFFIX_LONG CX_REG_ID));
   new_inst_x64 X64_INST_CMPX (Some (new_unsigned_int_x64ope X64_SUFFIX_LONG IUInt 4)) (Some (new_reg_x64ope X64_SUFFIX_LONG CX_REG_ID));
   new_inst_x64 X64_INST_JE None (Some (new_jlabel_x64ope [76; 65; 66; 69; 76]))].
Proof. vm_compute. reflexivity. Qed.
(** tests/x64gen/test_ctrlinst.c test_x64gen_jeq_reg_reg_unsinged *)
Definition test_x64gen_jeq_reg_reg_unsinged := inst_test [new_inst_immc IMMC_INST_LOAD (Some (new_unsigned_reg_immcope IMMC_SUFFIX_LONG 0)) (Some (new_mem_immcope 4)) None;
   new_inst_immc IMMC_INST_LOAD (Some (new_unsigned_reg_immcope IMMC_SUFFIX_LONG 1)) (Some (new_mem_immcope 8)) None;
   new_inst_immc IMMC_INST_JEQ (Some (new_label_immcope [76; 65; 66; 69; 76])) (Some (new_unsigned_reg_immcope IMMC_SUFFIX_LONG 0)) (Some (new_unsigned_reg_immcope IMMC_SUFFIX_LONG 1))] [mkls [mklv 0 2] 0 (-1); mkls [mklv 1 2] 0 (-1); mkls [] 0 (-1); mkls [] 0 (-1); mkls [] 0 (-1); mkls [] 0 (-1); mkls [] 0 (-1); mkls [] 0 (-1)].
Example test_x64gen_jeq_reg_reg_unsinged_ok : test_x64gen_jeq_reg_reg_unsinged = Ok
  [new_inst_x64 X64_INST_MOVX (Some (new_mem_x64ope 4)) (Some (new_reg_x64ope X64_SUFFIX_LONG CX_REG_ID));
   new_inst_x64 X64_INST_MOVX (Some (new_mem_x64ope 8)) (Some (new_reg_x64ope X64_SUFFIX_LONG DX_REG_ID));
   new_inst_x64 X64_INST_CMPX (Some (new_reg_x64ope X64_SUFFIX_LONG DX_REG_ID)) (Some (new_reg_x64ope X64_SUFFIX_LONG CX_REG_ID));
   new_inst_x64 X64_INST_JE None (Some (new_jlabel_x64ope [76; 65; 66; 69; 76]))].
Proof. vm_compute. reflexivity. Qed.
(** tests/x64gen/test_ctrlinst.c test_x64gen_jneq_reg_int_signed *)
Definition test_x64gen_jneq_reg_int_signed := inst_test [new_inst_immc IMMC_INST_LOAD (Some (new_signed_reg_immcope IMMC_SUFFIX_QUAD 0)) (Some (new_mem_immcope 8)) None;
   new_inst_immc IMMC_INST_JNEQ (Some (new_label_immcope [76; 65; 66; 69; 76])) (Some (new_signed_reg_immcope IMMC_SUFFIX_QUAD 0)) (Some (new_signed_int_immcope IMMC_SUFFIX_LONG IInt 8))] [mkls [mklv 0 1] 0 (-1); mkls [] 0 (-1); mkls [] 0 (-1); mkls [] 0 (-1); mkls [] 0 (-1); mkls [] 0 (-1); mkls [] 0 (-1); mkls [] 0 (-1)].
Example test_x64gen_jneq_reg_int_signed_ok : test_x64gen_jneq_reg_int_signed = Ok
  [new_inst_x64 X64_INST_MOVX (Some (new_mem_x64ope 8)) (Some (new_reg_x64ope X64_SUFFIX_QUAD CX_REG_ID));
   new_inst_x64 X64_INST_CMPX (Some (new_signed_int_x64ope X64_SUFFIX_QUAD IInt 8)) (Some (new_reg_x64ope X64_SUFFIX_QUAD CX_REG_ID));
   new_inst_x64 X64_INST_JNE None (Some (new_jlabel_x64ope [76; 65; 66; 69; 76]))].
Proof. vm_compute. reflexivity. Qed.
(** tests/x64gen/test_ctrlinst.c test_x64gen_jneq_reg_reg_signed *)
Definition test_x64gen_jneq_reg_reg_signed := inst_test [new_inst_immc IMMC_INST_LOAD (Some (new_signed_reg_immcope IMMC_SUFFIX_LONG 0)) (Some (new_mem_immcope 4)) None;
   new_inst_immc IMMC_INST_LOAD (Some (new_signed_reg_immcope IMMC_SUFFIX_BYTE 1)) (Some (new_mem_immcope 8)) None;
   new_inst_immc IMMC_INST_JNEQ (Some (new_label_immcope [76; 65; 66; 69; 76])) (Some (new_signed_reg_immcope IMMC_SUFFIX_LONG 0)) (Some (new_signed_reg_immcope IMMC_SUFFIX_BYTE 1))] [mkls [mklv 0 2] 0 (-1); mkls [mklv 1 2] 0 (-1); mkls [] 0 (-1); mkls [] 0 (-1); mkls [] 0 (-1); mkls [] 0 (-1); mkls [] 0 (-1); mkls [] 0 (-1)].
Example test_x64gen_jneq_reg_reg_signed_ok : test_x64gen_jneq_reg_reg_signed = Ok
  [new_inst_x64 X64_INST_MOVX (Some (new_mem_x64ope 4)) (Some (new_reg_x64ope X64_SUFFIX_LONG CX_REG_ID));
   new_inst_x64 X64_INST_MOVX (Some (new_mem_x64ope 8)) (Some (new_reg_x64ope X64_SUFFIX_BYTE DX_REG_ID));
   new_inst_x64 X64_INST_MOVSXX (Some (new_reg_x64ope X64_SUFFIX_BYTE DX_REG_ID)) (Some (new_reg_x64ope X64_SUFFIX_LONG DX_REG_ID));
   new_inst_x64 X64_INST_CMPX (Some (new_reg_x64ope X64_SUFFIX_LONG DX_REG_ID)) (Some (new_reg_x64ope X64_SUFFIX_LONG CX_REG_ID));
   new_inst_x64 X64_INST_JNE None (Some (new_jlabel_x64ope [76; 65; 66; 69; 76]))].
Proof. vm_compute. reflexivity. Qed.
(** tests/x64gen/test_ctrlinst.c test_x64gen_jneq_reg_int_unsigned *)
Definition test_x64gen_jneq_reg_int_unsigned := inst_test [new_inst_immc IMMC_INST_LOAD (Some (new_unsigned_reg_immcope IMMC_SUFFIX_QUAD 0)) (Some (new_mem_immcope 8)) None;
   new_inst_immc IMMC_INST_JNEQ (Some (new_label_immcope [76; 65; 66; 69; 76])) (Some (new_unsigned_reg_immcope IMMC_SUFFIX_QUAD 0)) (Some (new_unsigned_int_immcope IMMC_SUFFIX_LONG IUInt 8))] [mkls [mklv 0 1] 0 (-1); mkls [] 0 (-1); mkls [] 0 (-1); mkls [] 0 (-1); mkls [] 0 (-1); mkls [] 0 (-1); mkls [] 0 (-1); mkls [] 0 (-1)].
Example test_x64gen_jneq_reg_int_unsigned_ok : test_x64gen_jneq_reg_int_unsigned = Ok
  [new_inst_x64 X64_INST_MOVX (Some (new_mem_x64ope 8)) (Some (new_reg_x64ope X64_SUFFIX_QUAD CX_REG_ID));
   new_inst_x64 X64_INST_CMPX (Some (new_unsigned_int_x64ope X64_SUFFIX_QUAD IUInt 8)) (Some (new_reg_x64ope X64_SUFFIX_QUAD CX_REG_ID));
   new_inst_x64 X64_INST_JNE None (Some (new_jlabel_x64ope [76; 65; 66; 69; 76]))].
Proof. vm_compute. reflexivity. Qed.
(** tests/x64gen/test_ctrlinst.c test_x64gen_jneq_reg_reg_unsigned *)
Definition test_x64gen_jneq_reg_reg_unsigned := inst_test [new_inst_immc IMMC_INST_LOAD (Some (new_unsigned_reg_immcope IMMC_SUFFIX_LONG 0)) (Some (new_mem_immcope 4)) None;
   new_inst_immc IMMC_INST_LOAD (Some (new_unsigned_reg_immcope IMMC_SUFFIX_BYTE 1)) (Some (new_mem_immcope 8)) None;
   new_inst_immc IMMC_INST_JNEQ (Some (new_label_immcope [76; 65; 66; 69; 76])) (Some (new_unsigned_reg_immcope IMMC_SUFFIX_LONG 0)) (Some (new_unsigned_reg_immcope IMMC_SUFFIX_BYTE 1))] [mkls [mklv 0 2] 0 (-1); mkls [mklv 1 2] 0 (-1); mkls [] 0 (-1); mkls [] 0 (-1); mkls [] 0 (-1); mkls [] 0 (-1); mkls [] 0 (-1); mkls [] 0 (-1)].
Example test_x64gen_jneq_reg_reg_unsigned_ok : test_x64gen_jneq_reg_reg_unsigned = Ok
  [new_inst_x64 X64_INST_MOVX (Some (new_mem_x64ope 4)) (Some (new_reg_x64ope X64_SUFFIX_LONG CX_REG_ID));
   new_inst_x64 X64_INST_MOVX (Some (new_mem_x64ope 8)) (Some (new_reg_x64ope X64_SUFFIX_BYTE DX_REG_ID));
   new_inst_x64 X64_INST_MOVZXX (Some (new_reg_x64ope X64_SUFFIX_BYTE DX_REG_ID)) (Some (new_reg_x64ope X64_SUFFIX_LONG DX_REG_ID));
   new_inst_x64 X64_INST_CMPX (Some (new_reg_x64ope X64_SUFFIX_LONG DX_REG_ID)) (Some (new_reg_x64ope X64_SUFFIX_LONG CX_REG_ID));
   new_inst_x64 X64_INST_JNE None (Some (new_jlabel_x64ope [76; 65; 66; 69; 76]))].
Proof. vm_compute. reflexivity. Qed.
(** tests/x64gen/test_ctrlinst.c test_x64gen_jgt_reg_int_signed *)
Definition test_x64gen_jgt_reg_int_signed := inst_test [new_inst_immc IMMC_INST_LOAD (Some (new_signed_reg_immcope IMMC_SUFFIX_BYTE 0)) (Some (new_mem_immcope 4)) None;
   new_inst_immc IMMC_INST_JGT (Some (new_label_immcope [76; 65; 66; 69; 76])) (Some (new_signed_reg_immcope IMMC_SUFFIX_BYTE 0)) (Some (new_signed_int_immcope IMMC_SUFFIX_LONG IInt 5))] [mkls [mklv 0 1] 0 (-1); mkls [] 0 (-1); mkls [] 0 (-1); mkls [] 0 (-1); mkls [] 0 (-1); mkls [] 0 (-1); mkls [] 0 (-1); mkls [] 0 (-1)].
Example test_x64gen_jgt_reg_int_signed_ok : test_x64gen_jgt_reg_int_signed = Ok
  [new_inst_x64 X64_INST_MOVX (Some (new_mem_x64ope 4)) (Some (new_reg_x64ope X64_SUFFIX_BYTE CX_REG_ID));
   new_inst_x64 X64_INST_MOVSXX (Some (new_reg_x64ope X64_SUFFIX_BYTE CX_REG_ID)) (Some (new_reg_x64ope X64_SUFFIX_LONG CX_REG_ID));
   new_inst_x64 X64_INST_CMPX (Some (new_signed_int_x64ope X64_SUFFIX_LONG IInt 5)) (Some (new_reg_x64ope X64_SUFFIX_LONG CX_REG_ID));
   new_inst_x64 X64_INST_JG None (Some (new_jlabel_x64ope [76; 65; 66; 69; 76]))].
Proof. vm_compute. reflexivity. Qed.
(** tests/x64gen/test_ctrlinst.c test_x64gen_jgt_reg_reg_singed *)
Definition test_x64gen_jgt_reg_reg_singed := inst_test [new_inst_immc IMMC_INST_LOAD (Some (new_signed_reg_immcope IMMC_SUFFIX_LONG 0)) (Some (new_mem_immcope 4)) None;
   new_inst_immc IMMC_INST_LOAD (Some (new_signed_reg_immcope IMMC_SUFFIX_LONG 1)) (Some (new_mem_immcope 8)) None;
   new_inst_immc IMMC_INST_JGT (Some (new_label_immcope [76; 65; 66; 69; 76])) (Some (new_signed_reg_immcope IMMC_SUFFIX_LONG 0)) (Some (new_signed_reg_immcope IMMC_SUFFIX_LONG 1))] [mkls [mklv 0 2] 0 (-1); mkls [mklv 1 2] 0 (-1); mkls [] 0 (-1); mkls [] 0 (-1); mkls [] 0 (-1); mkls [] 0 (-1); mkls [] 0 (-1); mkls [] 0 (-1)].
Example test_x64gen_jgt_reg_reg_singed_ok : test_x64gen_jgt_reg_reg_singed = Ok
  [new_inst_x64 X64_INST_MOVX (Some (new_mem_x64ope 4)) (Some (new_reg_x64ope X64_SUFFIX_LONG CX_REG_ID));
   new_inst_x64 X64_INST_MOVX (Some (new_mem_x64ope 8)) (Some (new_reg_x64ope X64_SUFFIX_LONG DX_REG_ID));
   new_inst_x64 X64_INST_CMPX (Some (new_reg_x64ope X64_SUFFIX_LONG DX_REG_ID)) (Some (new_reg_x64ope X64_SUFFIX_LONG CX_REG_ID));
   new_inst_x64 X64_INST_JG None (Some (new_jlabel_x64ope [76; 65; 66; 69; 76]))].
Proof. vm_compute. reflexivity. Qed.
(** tests/x64gen/test_ctrlinst.c test_x64gen_jgt_reg_int_unsigned *)
Definition test_x64gen_jgt_reg_int_unsigned := inst_test [new_inst_immc IMMC_INST_LOAD (Some (new_unsigned_reg_immcope IMMC_SUFFIX_BYTE 0)) (Some (new_mem_immcope 4)) None;
   new_inst_immc IMMC_INST_JGT (Some (new_label_immcope [76; 65; 66; 69; 76])) (Some (new_unsigned_reg_immcope IMMC_SUFFIX_BYTE 0)) (Some (new_unsigned_int_immcope IMMC_SUFFIX_LONG IUInt 5))] [mkls [mklv 0 1] 0 (-1); mkls [] 0 (-1); mkls [] 0 (-1); mkls [] 0 (-1); mkls [] 0 (-1); mkls [] 0 (-1); mkls [] 0 (-1); mkls [] 0 (-1)].
Example test_x64gen_jgt_reg_int_unsigned_ok : test_x64gen_jgt_reg_int_unsigned = Ok
  [new_inst_x64 X64_INST_MOVX (Some (new_mem_x64ope 4)) (Some (new_reg_x64ope X64_SUFFIX_BYTE CX_REG_ID));
   new_inst_x64 X64_INST_MOVZXX (Some (new_reg_x64ope X64_SUFFIX_BYTE CX_REG_ID)) (Some (new_reg_x64ope X64_SUFFIX_LONG CX_REG_ID));
   new_inst_x64 X64_INST_CMPX (Some (new_unsigned_int_x64ope X64_SUFFIX_LONG IUInt 5)) (Some (new_reg_x64ope X64_SUFFIX_LONG CX_REG_ID));
   new_inst_x64 X64_INST_JA None (Some (new_jlabel_x64ope [76; 65; 66; 69; 76]))].
Proof. vm_compute. reflexivity. Qed.
(** tests/x64gen/test_ctrlinst.c test_x64gen_jgt_reg_reg_unsinged *)
Definition test_x64gen_jgt_reg_reg_unsinged := inst_test [new_inst_immc IMMC_INST_LOAD (Some (new_unsigned_reg_immcope IMMC_SUFFIX_LONG 0)) (Some (new_mem_immcope 4)) None;
   new_inst_immc IMMC_INST_LOAD (Some (new_unsigned_reg_immcope IMMC_SUFFIX_LONG 1)) (Some (new_mem_immcope 8)) None;
   new_inst_immc IMMC_INST_JGT (Some (new_label_immcope [76; 65; 66; 69; 76])) (Some (new_unsigned_reg_immcope IMMC_SUFFIX_LONG 0)) (Some (new_unsigned_reg_immcope IMMC_SUFFIX_LONG 1))] [mkls [mklv 0 2] 0 (-1); mkls [mklv 1 2] 0 (-1); mkls [] 0 (-1); mkls [] 0 (-1); mkls [] 0 (-1); mkls [] 0 (-1); mkls [] 0 (-1); mkls [] 0 (-1)].
Example test_x64gen_jgt_reg_reg_unsinged_ok : test_x64gen_jgt_reg_reg_unsinged = Ok
  [new_inst_x64 X64_INST_MOVX (Some (new_mem_x64ope 4)) (Some (new_reg_x64ope X64_SUFFIX_LONG CX_REG_ID));
   new_inst_x64 X64_INST_MOVX (Some (new_mem_x64ope 8)) (Some (new_reg_x64ope X64_SUFFIX_LONG DX_REG_ID));
   new_inst_x64 X64_INST_CMPX (Some (new_reg_x64ope X64_SUFFIX_LONG DX_REG_ID)) (Some (new_reg_x64ope X64_SUFFIX_LONG CX_REG_ID));
   new_inst_x64 X64_INST_JA None (Some (new_jlabel_x64ope [76; 65; 66; 69; 76]))].
Proof. vm_compute. reflexivity. Qed.
(** tests/x64gen/test_ctrlinst.c test_x64gen_jgeq_reg_int_signed *)
Definition test_x64gen_jgeq_reg_int_signed := inst_test [new_inst_immc IMMC_INST_LOAD (Some (new_signed_reg_immcope IMMC_SUFFIX_BYTE 0)) (Some (new_mem_immcope 4)) None;
   new_inst_immc IMMC_INST_JGEQ (Some (new_label_immcope [76; 65; 66; 69; 76])) (Some (new_signed_reg_immcope IMMC_SUFFIX_BYTE 0)) (Some (new_signed_int_immcope IMMC_SUFFIX_LONG IInt 6))] [mkls [mklv 0 1] 0 (-1); mkls [] 0 (-1); mkls [] 0 (-1); mkls [] 0 (-1); mkls [] 0 (-1); mkls [] 0 (-1); mkls [] 0 (-1); mkls [] 0 (-1)].
Example test_x64gen_jgeq_reg_int_signed_ok : test_x64gen_jgeq_reg_int_signed = Ok
  [new_inst_x64 X64_INST_MOVX (Some (new_mem_x64ope 4)) (Some (new_reg_x64ope X64_SUFFIX_BYTE CX_REG_ID));
   new_inst_x64 X64_INST_MOVSXX (Some (new_reg_x64ope X64_SUFFIX_BYTE CX_REG_ID)) (Some (new_reg_x64ope X64_SUFFIX_LONG CX_REG_ID));
   new_inst_x64 X64_INST_CMPX (Some (new_signed_int_x64ope X64_SUFFIX_LONG IInt 6)) (Some (new_reg_x64ope X64_SUFFIX_LONG CX_REG_ID));
   new_inst_x64 X64_INST_JGE None (Some (new_jlabel_x64ope [76; 65; 66; 69; 76]))].
Proof. vm_compute. reflexivity. Qed.
(** tests/x64gen/test_ctrlinst.c test_x64gen_jgeq_reg_reg_signed *)
Definition test_x64gen_jgeq_reg_reg_signed := inst_test [new_inst_immc IMMC_INST_LOAD (Some (new_signed_reg_immcope IMMC_SUFFIX_LONG 0)) (Some (new_mem_immcope 4)) None;
   new_inst_immc IMMC_INST_LOAD (Some (new_signed_reg_immcope IMMC_SUFFIX_LONG 1)) (Some (new_mem_immcope 8)) None;
   new_inst_immc IMMC_INST_JGEQ (Some (new_label_immcope [76; 65; 66; 69; 76])) (Some (new_signed_reg_immcope IMMC_SUFFIX_LONG 0)) (Some (new_signed_reg_immcope IMMC_SUFFIX_LONG 1))] [mkls [mklv 0 2] 0 (-1); mkls [mklv 1 2] 0 (-1); mkls [] 0 (-1); mkls [] 0 (-1); mkls [] 0 (-1); mkls [] 0 (-1); mkls [] 0 (-1); mkls [] 0 (-1)].
Example test_x64gen_jgeq_reg_reg_signed_ok : test_x64gen_jgeq_reg_reg_signed = Ok
  [new_inst_x64 X64_INST_MOVX (Some (new_mem_x64ope 4)) (Some (new_reg_x64ope X64_SUFFIX_LONG CX_REG_ID));
   new_inst_x64 X64_INST_MOVX (Some (new_mem_x64ope 8)) (Some (new_reg_x64ope X64_SUFFIX_LONG DX_REG_ID));
   new_inst_x64 X64_INST_CMPX (Some (new_reg_x64ope X64_SUFFIX_LONG DX_REG_ID)) (Some (new_reg_x64ope X64_SUFFIX_LONG CX_REG_ID));
   new_inst_x64 X64_INST_JGE None (Some (new_jlabel_x64ope [76; 65; 66; 69; 76]))].
Proof. vm_compute. reflexivity. Qed.
(** tests/x64gen/test_ctrlinst.c test_x64gen_jgeq_reg_int_unsigned *)
Definition test_x64gen_jgeq_reg_int_unsigned := inst_test [new_inst_immc IMMC_INST_LOAD (Some (new_signed_reg_immcope IMMC_SUFFIX_BYTE 0)) (Some (new_mem_immcope 4)) None;
   new_inst_immc IMMC_INST_JGEQ (Some (new_label_immcope [76; 65; 66; 69; 76])) (Some (new_unsigned_reg_immcope IMMC_SUFFIX_BYTE 0)) (Some (new_unsigned_int_immcope IMMC_SUFFIX_LONG IUInt 6))] [mkls [mklv 0 1] 0 (-1); mkls [] 0 (-1); mkls [] 0 (-1); mkls [] 0 (-1); mkls [] 0 (-1); mkls [] 0 (-1); mkls [] 0 (-1); mkls [] 0 (-1)].
Example test_x64gen_jgeq_reg_int_unsigned_ok : test_x64gen_jgeq_reg_int_unsigned = Ok
  [new_inst_x64 X64_INST_MOVX (Some (new_mem_x64ope 4)) (Some (new_reg_x64ope X64_SUFFIX_BYTE CX_REG_ID));
   new_inst_x64 X64_INST_MOVZXX (Some (new_reg_x64ope X64_SUFFIX_BYTE CX_REG_ID)) (Some (new_reg_x64ope X64_SUFFIX_LONG CX_REG_ID));
   new_inst_x64 X64_INST_CMPX (Some (new_unsigned_int_x64ope X64_SUFFIX_LONG IUInt 6)) (Some (new_reg_x64ope X64_SUFFIX_LONG CX_REG_ID));
   new_inst_x64 X64_INST_JAE None (Some (new_jlabel_x64ope [76; 65; 66; 69; 76]))].
Proof. vm_compute. reflexivity. Qed.
(** tests/x64gen/test_ctrlinst.c test_x64gen_jgeq_reg_reg_unsigned *)
Definition test_x64gen_jgeq_reg_reg_unsigned := inst_test [new_inst_immc IMMC_INST_LOAD (Some (new_unsigned_reg_immcope IMMC_SUFFIX_LONG 0)) (Some (new_mem_immcope 4)) None;
   new_inst_immc IMMC_INST_LOAD (Some (new_unsigned_reg_immcope IMMC_SUFFIX_LONG 1)) (Some (new_mem_immcope 8)) None;
   new_inst_immc IMMC_INST_JGEQ (Some (new_label_immcope [76; 65; 66; 69; 76])) (Some (new_unsigned_reg_immcope IMMC_SUFFIX_LONG 0)) (Some (new_unsigned_reg_immcope IMMC_SUFFIX_LONG 1))] [mkls [mklv 0 2] 0 (-1); mkls [mklv 1 2] 0 (-1); mkls [] 0 (-1); mkls [] 0 (-1); mkls [] 0 (-1); mkls [] 0 (-1); mkls [] 0 (-1); mkls [] 0 (-1)].
Example test_x64gen_jgeq_reg_reg_unsigned_ok : test_x64gen_jgeq_reg_reg_unsigned = Ok
  [new_inst_x64 X64_INST_MOVX (Some (new_mem_x64ope 4)) (Some (new_reg_x64ope X64_SUFFIX_LONG CX_REG_ID));
   new_inst_x64 X64_INST_MOVX (Some (new_mem_x64ope 8)) (Some (new_reg_x64ope X64_SUFFIX_LONG DX_REG_ID));
   new_inst_x64 X64_INST_CMPX (Some (new_reg_x64ope X64_SUFFIX_LONG DX_REG_ID)) (Some (new_reg_x64ope X64_SUFFIX_LONG CX_REG_ID));
   new_inst_x64 X64_INST_JAE None (Some (new_jlabel_x64ope [76; 65; 66; 69; 76]))].
Proof. vm_compute. reflexivity. Qed.
(** tests/x64gen/test_ctrlinst.c test_x64gen_jlt_reg_int_signed *)
Definition test_x64gen_jlt_reg_int_signed := inst_test [new_inst_immc IMMC_INST_LOAD (Some (new_signed_reg_immcope IMMC_SUFFIX_LONG 0)) (Some (new_mem_immcope 4)) None;
   new_inst_immc IMMC_INST_JLT (Some (new_label_immcope [76; 65; 66; 69; 76])) (Some (new_signed_reg_immcope IMMC_SUFFIX_LONG 0)) (Some (new_signed_int_immcope IMMC_SUFFIX_LONG IInt 7))] [mkls [mklv 0 1] 0 (-1); mkls [] 0 (-1); mkls [] 0 (-1); mkls [] 0 (-1); mkls [] 0 (-1); mkls [] 0 (-1); mkls [] 0 (-1); mkls [] 0 (-1)].
Example test_x64gen_jlt_reg_int_signed_ok : test_x64gen_jlt_reg_int_signed = Ok
  [new_inst_x64 X64_INST_MOVX (Some (new_mem_x64ope 4)) (Some (new_reg_x64ope X64_SUFFIX_LONG CX_REG_ID));
   new_inst_x64 X64_INST_CMPX (Some (new_signed_int_x64ope X64_SUFFIX_LONG IInt 7)) (Some (new_reg_x64ope X64_SUFFIX_LONG CX_REG_ID));
   new_inst_x64 X64_INST_JL None (Some (new_jlabel_x64ope [76; 65; 66; 69; 76]))].
Proof. vm_compute. reflexivity. Qed.
(** tests/x64gen/test_ctrlinst.c test_x64gen_jlt_reg_reg_singed *)
Definition test_x64gen_jlt_reg_reg_singed := inst_test [new_inst_immc IMMC_INST_LOAD (Some (new_signed_reg_immcope IMMC_SUFFIX_LONG 0)) (Some (new_mem_immcope 4)) None;
   new_inst_immc IMMC_INST_LOAD (Some (new_signed_reg_immcope IMMC_SUFFIX_QUAD 1)) (Some (new_mem_immcope 12)) None;
   new_inst_immc IMMC_INST_JLT (Some (new_label_immcope [76; 65; 66; 69; 76])) (Some (new_signed_reg_immcope IMMC_SUFFIX_LONG 0)) (Some (new_signed_reg_immcope IMMC_SUFFIX_QUAD 1))] [mkls [mklv 0 2] 0 (-1); mkls [mklv 1 2] 0 (-1); mkls [] 0 (-1); mkls [] 0 (-1); mkls [] 0 (-1); mkls [] 0 (-1); mkls [] 0 (-1); mkls [] 0 (-1)].
Example test_x64gen_jlt_reg_reg_singed_ok : test_x64gen_jlt_reg_reg_singed = Ok
  [new_inst_x64 X64_INST_MOVX (Some (new_mem_x64ope 4)) (Some (new_reg_x64ope X64_SUFFIX_LONG CX_REG_ID));
   new_inst_x64 X64_INST_MOVX (Some (new_mem_x64ope 12)) (Some (new_reg_x64ope X64_SUFFIX_QUAD DX_REG_ID));
   new_inst_x64 X64_INST_MOVX (Some (new_reg_x64ope X64_SUFFIX_LONG CX_REG_ID)) (Some (new_reg_x64ope X64_SUFFIX_LONG AX_REG_ID));
   new_inst_x64 X64_INST_CXTX (Some (new_suffix_x64ope X64_SUFFIX_LONG)) (Some (new_suffix_x64ope X64_SUFFIX_QUAD));
   new_inst_x64 X64_INST_MOVX (Some (new_reg_x64ope X64_SUFFIX_QUAD AX_REG_ID)) (Some (new_reg_x64ope X64_SUFFIX_QUAD CX_REG_ID));
   new_inst_x64 X64_INST_CMPX (Some (new_reg_x64ope X64_SUFFIX_QUAD DX_REG_ID)) (Some (new_reg_x64ope X64_SUFFIX_QUAD CX_REG_ID));
   new_inst_x64 X64_INST_JL None (Some (new_jlabel_x64ope [76; 65; 66; 69; 76]))].
Proof. vm_compute. reflexivity. Qed.
(** tests/x64gen/test_ctrlinst.c test_x64gen_jlt_reg_int_unsigned *)
Definition test_x64gen_jlt_reg_int_unsigned := inst_test [new_inst_immc IMMC_INST_LOAD (Some (new_signed_reg_immcope IMMC_SUFFIX_LONG 0)) (Some (new_mem_immcope 4)) None;
   new_inst_immc IMMC_INST_JLT (Some (new_label_immcope [76; 65; 66; 69; 76])) (Some (new_unsigned_reg_immcope IMMC_SUFFIX_LONG 0)) (Some (new_unsigned_int_immcope IMMC_SUFFIX_LONG IUInt 7))] [mkls [mklv 0 1] 0 (-1); mkls [] 0 (-1); mkls [] 0 (-1); mkls [] 0 (-1); mkls [] 0 (-1); mkls [] 0 (-1); mkls [] 0 (-1); mkls [] 0 (-1)].
Example test_x64gen_jlt_reg_int_unsigned_ok : test_x64gen_jlt_reg_int_unsigned = Ok
  [new_inst_x64 X64_INST_MOVX (Some (new_mem_x64ope 4)) (Some (new_reg_x64ope X64_SUFFIX_LONG CX_REG_ID));
   new_inst_x64 X64_INST_CMPX (Some (new_unsigned_int_x64ope X64_SUFFIX_LONG IUInt 7)) (Some (new_reg_x64ope X64_SUFFIX_LONG CX_REG_ID));
   new_inst_x64 X64_INST_JB None (Some (new_jlabel_x64ope [76; 65; 66; 69; 76]))].
Proof. vm_compute. reflexivity. Qed.
(** tests/x64gen/test_ctrlinst.c test_x64gen_jlt_reg_reg_unsinged *)
Definition test_x64gen_jlt_reg_reg_unsinged := inst_test [new_inst_immc IMMC_INST_LOAD (Some (new_unsigned_reg_immcope IMMC_SUFFIX_LONG 0)) (Some (new_mem_immcope 4)) None;
   new_inst_immc IMMC_INST_LOAD (Some (new_unsigned_reg_immcope IMMC_SUFFIX_QUAD 1)) (Some (new_mem_immcope 12)) None;
   new_inst_immc IMMC_INST_JLT (Some (new_label_immcope [76; 65; 66; 69; 76])) (Some (new_unsigned_reg_immcope IMMC_SUFFIX_LONG 0)) (Some (new_unsigned_reg_immcope IMMC_SUFFIX_QUAD 1))] [mkls [mklv 0 2] 0 (-1); mkls [mklv 1 2] 0 (-1); mkls [] 0 (-1); mkls [] 0 (-1); mkls [] 0 (-1); mkls [] 0 (-1); mkls [] 0 (-1); mkls [] 0 (-1)].
Example test_x64gen_jlt_reg_reg_unsinged_ok : test_x64gen_jlt_reg_reg_unsinged = Ok
  [new_inst_x64 X64_INST_MOVX (Some (new_mem_x64ope 4)) (Some (new_reg_x64ope X64_SUFFIX_LONG CX_REG_ID));
   new_inst_x64 X64_INST_MOVX (Some (new_mem_x64ope 12)) (Some (new_reg_x64ope X64_SUFFIX_QUAD DX_REG_ID));
   new_inst_x64 X64_INST_CMPX (Some (new_reg_x64ope X64_SUFFIX_QUAD DX_REG_ID)) (Some (new_reg_x64ope X64_SUFFIX_QUAD CX_REG_ID));
   new_inst_x64 X64_INST_JB None (Some (new_jlabel_x64ope [76; 65; 66; 69; 76]))].
Proof. vm_compute. reflexivity. Qed.
(** tests/x64gen/test_ctrlinst.c test_x64gen_jleq_reg_int_signed *)
Definition test_x64gen_jleq_reg_int_signed := inst_test [new_inst_immc IMMC_INST_LOAD (Some (new_signed_reg_immcope IMMC_SUFFIX_LONG 0)) (Some (new_mem_immcope 4)) None;
   new_inst_immc IMMC_INST_JLEQ (Some (new_label_immcope [76; 65; 66; 69; 76])) (Some (new_signed_reg_immcope IMMC_SUFFIX_LONG 0)) (Some (new_signed_int_immcope IMMC_SUFFIX_LONG IInt 8))] [mkls [mklv 0 1] 0 (-1); mkls [] 0 (-1); mkls [] 0 (-1); mkls [] 0 (-1); mkls [] 0 (-1); mkls [] 0 (-1); mkls [] 0 (-1); mkls [] 0 (-1)].
Example test_x64gen_jleq_reg_int_signed_ok : test_x64gen_jleq_reg_int_signed = Ok
  [new_inst_x64 X64_INST_MOVX (Some (new_mem_x64ope 4)) (Some (new_reg_x64ope X64_SUFFIX_LONG CX_REG_ID));
   new_inst_x64 X64_INST_CMPX (Some (new_signed_int_x64ope X64_SUFFIX_LONG IInt 8)) (Some (new_reg_x64ope X64_SUFFIX_LONG CX_REG_ID));
   new_inst_x64 X64_INST_JLE None (Some (new_jlabel_x64ope [76; 65; 66; 69; 76]))].
Proof. vm_compute. reflexivity. Qed.
(** tests/x64gen/test_ctrlinst.c test_x64gen_jleq_reg_reg_signed *)
Definition test_x64gen_jleq_reg_reg_signed := inst_test [new_inst_immc IMMC_INST_LOAD (Some (new_signed_reg_immcope IMMC_SUFFIX_LONG 0)) (Some (new_mem_immcope 4)) None;
   new_inst_immc IMMC_INST_LOAD (Some (new_signed_reg_immcope IMMC_SUFFIX_QUAD 1)) (Some (new_mem_immcope 12)) None;
   new_inst_immc IMMC_INST_JLEQ (Some (new_label_immcope [76; 65; 66; 69; 76])) (Some (new_signed_reg_immcope IMMC_SUFFIX_LONG 0)) (Some (new_signed_reg_immcope IMMC_SUFFIX_QUAD 1))] [mkls [mklv 0 2] 0 (-1); mkls [mklv 1 2] 0 (-1); mkls [] 0 (-1); mkls [] 0 (-1); mkls [] 0 (-1); mkls [] 0 (-1); mkls [] 0 (-1); mkls [] 0 (-1)].
Example test_x64gen_jleq_reg_reg_signed_ok : test_x64gen_jleq_reg_reg_signed = Ok
  [new_inst_x64 X64_INST_MOVX (Some (new_mem_x64ope 4)) (Some (new_reg_x64ope X64_SUFFIX_LONG CX_REG_ID));
   new_inst_x64 X64_INST_MOVX (Some (new_mem_x64ope 12)) (Some (new_reg_x64ope X64_SUFFIX_QUAD DX_REG_ID));
   new_inst_x64 X64_INST_MOVX (Some (new_reg_x64ope X64_SUFFIX_LONG CX_REG_ID)) (Some (new_reg_x64ope X64_SUFFIX_LONG AX_REG_ID));
   new_inst_x64 X64_INST_CXTX (Some (new_suffix_x64ope X64_SUFFIX_LONG)) (Some (new_suffix_x64ope X64_SUFFIX_QUAD));
   new_inst_x64 X64_INST_MOVX (Some (new_reg_x64ope X64_SUFFIX_QUAD AX_REG_ID)) (Some (new_reg_x64ope X64_SUFFIX_QUAD CX_REG_ID));
   new_inst_x64 X64_INST_CMPX (Some (new_reg_x64ope X64_SUFFIX_QUAD DX_REG_ID)) (Some (new_reg_x64ope X64_SUFFIX_QUAD CX_REG_ID));
   new_inst_x64 X64_INST_JLE None (Some (new_jlabel_x64ope [76; 65; 66; 69; 76]))].
Proof. vm_compute. reflexivity. Qed.
(** tests/x64gen/test_ctrlinst.c test_x64gen_jleq_reg_int_unsigned *)
Definition test_x64gen_jleq_reg_int_unsigned := inst_test [new_inst_immc IMMC_INST_LOAD (Some (new_unsigned_reg_immcope IMMC_SUFFIX_LONG 0)) (Some (new_mem_immcope 4)) None;
   new_inst_immc IMMC_INST_JLEQ (Some (new_label_immcope [76; 65; 66; 69; 76])) (Some (new_unsigned_reg_immcope IMMC_SUFFIX_LONG 0)) (Some (new_unsigned_int_immcope IMMC_SUFFIX_LONG IUInt 7))] [mkls [mklv 0 1] 0 (-1); mkls [] 0 (-1); mkls [] 0 (-1); mkls [] 0 (-1); mkls [] 0 (-1); mkls [] 0 (-1); mkls [] 0 (-1); mkls [] 0 (-1)].
Example test_x64gen_jleq_reg_int_unsigned_ok : test_x64gen_jleq_reg_int_unsigned = Ok
  [new_inst_x64 X64_INST_MOVX (Some (new_mem_x64ope 4)) (Some (new_reg_x64ope X64_SUFFIX_LONG CX_REG_ID));
   new_inst_x64 X64_INST_CMPX (Some (new_unsigned_int_x64ope X64_SUFFIX_LONG IUInt 7)) (Some (new_reg_x64ope X64_SUFFIX_LONG CX_REG_ID));
   new_inst_x64 X64_INST_JBE None (Some (new_jlabel_x64ope [76; 65; 66; 69; 76]))].
Proof. vm_compute. reflexivity. Qed.
(** tests/x64gen/test_ctrlinst.c test_x64gen_jleq_reg_reg_unsigned *)
Definition test_x64gen_jleq_reg_reg_unsigned := inst_test [new_inst_immc IMMC_INST_LOAD (Some (new_unsigned_reg_immcope IMMC_SUFFIX_LONG 0)) (Some (new_mem_immcope 4)) None;
   new_inst_immc IMMC_INST_LOAD (Some (new_unsigned_reg_immcope IMMC_SUFFIX_QUAD 1)) (Some (new_mem_immcope 12)) None;
   new_inst_immc IMMC_INST_JLEQ (Some (new_label_immcope [76; 65; 66; 69; 76])) (Some (new_unsigned_reg_immcope IMMC_SUFFIX_LONG 0)) (Some (new_unsigned_reg_immcope IMMC_SUFFIX_QUAD 1))] [mkls [mklv 0 2] 0 (-1); mkls [mklv 1 2] 0 (-1); mkls [] 0 (-1); mkls [] 0 (-1); mkls [] 0 (-1); mkls [] 0 (-1); mkls [] 0 (-1); mkls [] 0 (-1)].
Example test_x64gen_jleq_reg_reg_unsigned_ok : test_x64gen_jleq_reg_reg_unsigned = Ok
  [new_inst_x64 X64_INST_MOVX (Some (new_mem_x64ope 4)) (Some (new_reg_x64ope X64_SUFFIX_LONG CX_REG_ID));
   new_inst_x64 X64_INST_MOVX (Some (new_mem_x64ope 12)) (Some (new_reg_x64ope X64_SUFFIX_QUAD DX_REG_ID));
   new_inst_x64 X64_INST_CMPX (Some (new_reg_x64ope X64_SUFFIX_QUAD DX_REG_ID)) (Some (new_reg_x64ope X64_SUFFIX_QUAD CX_REG_ID));
   new_inst_x64 X64_INST_JBE None (Some (new_jlabel_x64ope [76; 65; 66; 69; 76]))].
Proof. vm_compute. reflexivity. Qed.
(** tests/x64gen/test_ctrlinst.c test_x64gen_call_label_six_or_less *)
Definition test_x64gen_call_label_six_or_less := inst_test [new_inst_immc IMMC_INST_PREP None (Some (new_signed_int_immcope IMMC_SUFFIX_NONE IInt 2)) None;
   new_inst_immc IMMC_INST_STARG (Some (new_signed_arg_immcope IMMC_SUFFIX_LONG 1)) (Some (new_signed_int_immcope IMMC_SUFFIX_LONG IInt 3)) None;
   new_inst_immc IMMC_INST_LOAD (Some (new_signed_reg_immcope IMMC_SUFFIX_BYTE 0)) (Some (new_mem_immcope 4)) None;
   new_inst_immc IMMC_INST_LOAD (Some (new_signed_reg_immcope IMMC_SUFFIX_LONG 0)) (Some (new_signed_reg_immcope IMMC_SUFFIX_BYTE 0)) None;
   new_inst_immc IMMC_INST_STARG (Some (new_signed_arg_immcope IMMC_SUFFIX_LONG 0)) (Some (new_signed_reg_immcope IMMC_SUFFIX_LONG 0)) None;
   new_inst_immc IMMC_INST_CALL (Some (new_signed_reg_immcope IMMC_SUFFIX_LONG 0)) (Some (new_label_immcope [102; 117; 110; 99; 116; 105; 111; 110])) (Some (new_signed_int_immcope IMMC_SUFFIX_NONE IInt 2));
   new_inst_immc IMMC_INST_CLEAN None (Some (new_signed_int_immcope IMMC_SUFFIX_NONE IInt 2)) None] [mkls [mklv 2 3; mklv 3 4; mklv 5 5] 0 (-1); mkls [] 0 (-1); mkls [] 0 (-1); mkls [] 0 (-1); mkls [] 0 (-1); mkls [] 0 (-1); mkls [] 0 (-1); mkls [] 0 (-1)].
Example test_x64gen_call_label_six_or_less_ok : test_x64gen_call_label_six_or_less = Ok
  [new_inst_x64 X64_INST_PUSHX (Some (new_signed_int_x64ope X64_SUFFIX_QUAD IInt 3)) None;
   new_inst_x64 X64_INST_MOVX (Some (new_mem_x64ope 4)) (Some (new_reg_x64ope X64_SUFFIX_BYTE CX_REG_ID));
   new_inst_x64 X64_INST_MOVSXX (Some (new_reg_x64ope X64_SUFFIX_BYTE CX_REG_ID)) (Some (new_reg_x64ope X64_SUFFIX_LONG CX_REG_ID));
   new_inst_x64 X64_INST_PUSHX (Some (new_reg_x64ope X64_SUFFIX_QUAD CX_REG_ID)) None;
   new_inst_x64 X64_INST_POPX None (Some (new_reg_x64ope X64_SUFFIX_QUAD DI_REG_ID));
   new_inst_x64 X64_INST_POPX None (Some (new_reg_x64ope X64_SUFFIX_QUAD SI_REG_ID));
   new_inst_x64 X64_INST_MOVX (Some (new_signed_int_x64ope X64_SUFFIX_QUAD IInt 0)) (Some (new_reg_x64ope X64_SUFFIX_QUAD AX_REG_ID));
   new_inst_x64 X64_INST_CALL (Some (new_jlabel_x64ope [102; 117; 110; 99; 116; 105; 111; 110])) None;
   new_inst_x64 X64_INST_MOVX (Some (new_reg_x64ope X64_SUFFIX_LONG AX_REG_ID)) (Some (new_reg_x64ope X64_SUFFIX_LONG CX_REG_ID))].
Proof. vm_compute. reflexivity. Qed.
(** tests/x64gen/test_ctrlinst.c test_x64gen_call_label_seven_or_more_odd *)
Definition test_x64gen_call_label_seven_or_more_odd := inst_test [new_inst_immc IMMC_INST_PREP None (Some (new_signed_int_immcope IMMC_SUFFIX_NONE IInt 7)) None;
   new_inst_immc IMMC_INST_STARG (Some (new_signed_arg_immcope IMMC_SUFFIX_LONG 6)) (Some (new_signed_int_immcope IMMC_SUFFIX_LONG IInt 12)) None;
   new_inst_immc IMMC_INST_STARG (Some (new_signed_arg_immcope IMMC_SUFFIX_LONG 5)) (Some (new_signed_int_immcope IMMC_SUFFIX_LONG IInt 10)) None;
   new_inst_immc IMMC_INST_STARG (Some (new_signed_arg_immcope IMMC_SUFFIX_LONG 4)) (Some (new_signed_int_immcope IMMC_SUFFIX_LONG IInt 8)) None;
   new_inst_immc IMMC_INST_STARG (Some (new_signed_arg_immcope IMMC_SUFFIX_LONG 3)) (Some (new_signed_int_immcope IMMC_SUFFIX_LONG IInt 6)) None;
   new_inst_immc IMMC_INST_STARG (Some (new_signed_arg_immcope IMMC_SUFFIX_LONG 2)) (Some (new_signed_int_immcope IMMC_SUFFIX_LONG IInt 4)) None;
   new_inst_immc IMMC_INST_STARG (Some (new_signed_arg_immcope IMMC_SUFFIX_LONG 1)) (Some (new_signed_int_immcope IMMC_SUFFIX_LONG IInt 2)) None;
   new_inst_immc IMMC_INST_STARG (Some (new_signed_arg_immcope IMMC_SUFFIX_LONG 0)) (Some (new_signed_int_immcope IMMC_SUFFIX_LONG IInt 0)) None;
   new_inst_immc IMMC_INST_CALL (Some (new_signed_reg_immcope IMMC_SUFFIX_LONG 0)) (Some (new_label_immcope [102; 117; 110; 99; 116; 105; 111; 110])) (Some (new_signed_int_immcope IMMC_SUFFIX_NONE IInt 7));
   new_inst_immc IMMC_INST_CLEAN None (Some (new_signed_int_immcope IMMC_SUFFIX_NONE IInt 7)) None] [mkls [mklv 8 8] 0 (-1); mkls [] 0 (-1); mkls [] 0 (-1); mkls [] 0 (-1); mkls [] 0 (-1); mkls [] 0 (-1); mkls [] 0 (-1); mkls [] 0 (-1)].
Example test_x64gen_call_label_seven_or_more_odd_ok : test_x64gen_call_label_seven_or_more_odd = Ok
  [new_inst_x64 X64_INST_SUBX (Some (new_signed_int_x64ope X64_SUFFIX_QUAD IInt 8)) (Some (new_reg_x64ope X64_SUFFIX_QUAD SP_REG_ID));
   new_inst_x64 X64_INST_PUSHX (Some (new_signed_int_x64ope X64_SUFFIX_QUAD IInt 12)) None;
   new_inst_x64 X64_INST_PUSHX (Some (new_signed_int_x64ope X64_SUFFIX_QUAD IInt 10)) None;
   new_inst_x64 X64_INST_PUSHX (Some (new_signed_int_x64ope X64_SUFFIX_QUAD IInt 8)) None;
   new_inst_x64 X64_INST_PUSHX (Some (new_signed_int_x64ope X64_SUFFIX_QUAD IInt 6)) None;
   new_inst_x64 X64_INST_PUSHX (Some (new_signed_int_x64ope X64_SUFFIX_QUAD IInt 4)) None;
   new_inst_x64 X64_INST_PUSHX (Some (new_signed_int_x64ope X64_SUFFIX_QUAD IInt 2)) None;
   new_inst_x64 X64_INST_PUSHX (Some (new_signed_int_x64ope X64_SUFFIX_QUAD IInt 0)) None;
   new_inst_x64 X64_INST_POPX None (Some (new_reg_x64ope X64_SUFFIX_QUAD DI_REG_ID));
   new_inst_x64 X64_INST_POPX None (Some (new_reg_x64ope X64_SUFFIX_QUAD SI_REG_ID));
   new_inst_x64 X64_INST_POPX None (Some (new_reg_x64ope X64_SUFFIX_QUAD DX_REG_ID));
   new_inst_x64 X64_INST_POPX None (Some (new_reg_x64ope X64_SUFFIX_QUAD CX_REG_ID));
   new_inst_x64 X64_INST_POPX None (Some (new_reg_x64ope X64_SUFFIX_QUAD R8_REG_ID));
   new_inst_x64 X64_INST_POPX None (Some (new_reg_x64ope X64_SUFFIX_QUAD R9_REG_ID));
   new_inst_x64 X64_INST_MOVX (Some (new_signed_int_x64ope X64_SUFFIX_QUAD IInt 0)) (Some (new_reg_x64ope X64_SUFFIX_QUAD AX_REG_ID));
   new_inst_x64 X64_INST_CALL (Some (new_jlabel_x64ope [102; 117; 110; 99; 116; 105; 111; 110])) None;
   new_inst_x64 X64_INST_MOVX (Some (new_reg_x64ope X64_SUFFIX_LONG AX_REG_ID)) (Some (new_reg_x64ope X64_SUFFIX_LONG CX_REG_ID));
   new_inst_x64 X64_INST_ADDX (Some (new_signed_int_x64ope X64_SUFFIX_QUAD IInt 16)) (Some (new_reg_x64ope X64_SUFFIX_QUAD SP_REG_ID))].
Proof. vm_compute. reflexivity. Qed.
(** tests/x64gen/test_ctrlinst.c test_x64gen_call_label_seven_or_more_even *)
Definition test_x64gen_call_label_seven_or_more_even := inst_test [new_inst_immc IMMC_INST_PREP None (Some (new_signed_int_immcope IMMC_SUFFIX_NONE IInt 8)) None;
   new_inst_immc IMMC_INST_STARG (Some (new_signed_arg_immcope IMMC_SUFFIX_LONG 7)) (Some (new_signed_int_immcope IMMC_SUFFIX_LONG IInt 14)) None;
   new_inst_immc IMMC_INST_STARG (Some (new_signed_arg_immcope IMMC_SUFFIX_LONG 6)) (Some (new_signed_int_immcope IMMC_SUFFIX_LONG IInt 12)) None;
   new_inst_immc IMMC_INST_STARG (Some (new_signed_arg_immcope IMMC_SUFFIX_LONG 5)) (Some (new_signed_int_immcope IMMC_SUFFIX_LONG IInt 10)) None;
   new_inst_immc IMMC_INST_STARG (Some (new_signed_arg_immcope IMMC_SUFFIX_LONG 4)) (Some (new_signed_int_immcope IMMC_SUFFIX_LONG IInt 8)) None;
   new_inst_immc IMMC_INST_STARG (Some (new_signed_arg_immcope IMMC_SUFFIX_LONG 3)) (Some (new_signed_int_immcope IMMC_SUFFIX_LONG IInt 6)) None;
   new_inst_immc IMMC_INST_STARG (Some (new_signed_arg_immcope IMMC_SUFFIX_LONG 2)) (Some (new_signed_int_immcope IMMC_SUFFIX_LONG IInt 4)) None;
   new_inst_immc IMMC_INST_STARG (Some (new_signed_arg_immcope IMMC_SUFFIX_LONG 1)) (Some (new_signed_int_immcope IMMC_SUFFIX_LONG IInt 2)) None;
   new_inst_immc IMMC_INST_STARG (Some (new_signed_arg_immcope IMMC_SUFFIX_LONG 0)) (Some (new_signed_int_immcope IMMC_SUFFIX_LONG IInt 0)) None;
   new_inst_immc IMMC_INST_CALL (Some (new_signed_reg_immcope IMMC_SUFFIX_LONG 0)) (Some (new_label_immcope [102; 117; 110; 99; 116; 105; 111; 110])) (Some (new_signed_int_immcope IMMC_SUFFIX_NONE IInt 8));
   new_inst_immc IMMC_INST_CLEAN None (Some (new_signed_int_immcope IMMC_SUFFIX_NONE IInt 8)) None] [mkls [mklv 8 8] 0 (-1); mkls [] 0 (-1); mkls [] 0 (-1); mkls [] 0 (-1); mkls [] 0 (-1); mkls [] 0 (-1); mkls [] 0 (-1); mkls [] 0 (-1)].
Example test_x64gen_call_label_seven_or_more_even_ok : test_x64gen_call_label_seven_or_more_even = Ok
  [new_inst_x64 X64_INST_PUSHX (Some (new_signed_int_x64ope X64_SUFFIX_QUAD IInt 14)) None;
   new_inst_x64 X64_INST_PUSHX (Some (new_signed_int_x64ope X64_SUFFIX_QUAD IInt 12)) None;
   new_inst_x64 X64_INST_PUSHX (Some (new_signed_int_x64ope X64_SUFFIX_QUAD IInt 10)) None;
   new_inst_x64 X64_INST_PUSHX (Some (new_signed_int_x64ope X64_SUFFIX_QUAD IInt 8)) None;
   new_inst_x64 X64_INST_PUSHX (Some (new_signed_int_x64ope X64_SUFFIX_QUAD IInt 6)) None;
   new_inst_x64 X64_INST_PUSHX (Some (new_signed_int_x64ope X64_SUFFIX_QUAD IInt 4)) None;
   new_inst_x64 X64_INST_PUSHX (Some (new_signed_int_x64ope X64_SUFFIX_QUAD IInt 2)) None;
   new_inst_x64 X64_INST_PUSHX (Some (new_signed_int_x64ope X64_SUFFIX_QUAD IInt 0)) None;
   new_inst_x64 X64_INST_POPX None (Some (new_reg_x64ope X64_SUFFIX_QUAD DI_REG_ID));
   new_inst_x64 X64_INST_POPX None (Some (new_reg_x64ope X64_SUFFIX_QUAD SI_REG_ID));
   new_inst_x64 X64_INST_POPX None (Some (new_reg_x64ope X64_SUFFIX_QUAD DX_REG_ID));
   new_inst_x64 X64_INST_POPX None (Some (new_reg_x64ope X64_SUFFIX_QUAD CX_REG_ID));
   new_inst_x64 X64_INST_POPX None (Some (new_reg_x64ope X64_SUFFIX_QUAD R8_REG_ID));
   new_inst_x64 X64_INST_POPX None (Some (new_reg_x64ope X64_SUFFIX_QUAD R9_REG_ID));
   new_inst_x64 X64_INST_MOVX (Some (new_signed_int_x64ope X64_SUFFIX_QUAD IInt 0)) (Some (new_reg_x64ope X64_SUFFIX_QUAD AX_REG_ID));
   new_inst_x64 X64_INST_CALL (Some (new_jlabel_x64ope [102; 117; 110; 99; 116; 105; 111; 110])) None;
   new_inst_x64 X64_INST_MOVX (Some (new_reg_x64ope X64_SUFFIX_LONG AX_REG_ID)) (Some (new_reg_x64ope X64_SUFFIX_LONG CX_REG_ID));
   new_inst_x64 X64_INST_ADDX (Some (new_signed_int_x64ope X64_SUFFIX_QUAD IInt 16)) (Some (new_reg_x64ope X64_SUFFIX_QUAD SP_REG_ID))].
Proof. vm_compute. reflexivity. Qed.
(** tests/x64gen/test_ctrlinst.c test_x64gen_call_ptr_without_evacuation *)
Definition test_x64gen_call_ptr_without_evacuation := inst_test [new_inst_immc IMMC_INST_LOAD (Some (new_signed_reg_immcope IMMC_SUFFIX_QUAD 0)) (Some (new_mem_immcope 8)) None;
   new_inst_immc IMMC_INST_PREP None (Some (new_signed_int_immcope IMMC_SUFFIX_NONE IInt 1)) None;
   new_inst_immc IMMC_INST_STARG (Some (new_signed_arg_immcope IMMC_SUFFIX_LONG 0)) (Some (new_signed_int_immcope IMMC_SUFFIX_LONG IInt 5)) None;
   new_inst_immc IMMC_INST_CALL (Some (new_signed_reg_immcope IMMC_SUFFIX_LONG 0)) (Some (new_ptr_immcope 0)) (Some (new_signed_int_immcope IMMC_SUFFIX_NONE IInt 1));
   new_inst_immc IMMC_INST_CLEAN None (Some (new_signed_int_immcope IMMC_SUFFIX_NONE IInt 1)) None] [mkls [mklv 0 3; mklv 3 3] 0 (-1); mkls [] 0 (-1); mkls [] 0 (-1); mkls [] 0 (-1); mkls [] 0 (-1); mkls [] 0 (-1); mkls [] 0 (-1); mkls [] 0 (-1)].
Example test_x64gen_call_ptr_without_evacuation_ok : test_x64gen_call_ptr_without_evacuation = Ok
  [new_inst_x64 X64_INST_MOVX (Some (new_mem_x64ope 8)) (Some (new_reg_x64ope X64_SUFFIX_QUAD CX_REG_ID));
   new_inst_x64 X64_INST_PUSHX (Some (new_signed_int_x64ope X64_SUFFIX_QUAD IInt 5)) None;
   new_inst_x64 X64_INST_POPX None (Some (new_reg_x64ope X64_SUFFIX_QUAD DI_REG_ID));
   new_inst_x64 X64_INST_MOVX (Some (new_signed_int_x64ope X64_SUFFIX_QUAD IInt 0)) (Some (new_reg_x64ope X64_SUFFIX_QUAD AX_REG_ID));
   new_inst_x64 X64_INST_CALL (Some (new_jptr_x64ope CX_REG_ID)) None;
   new_inst_x64 X64_INST_MOVX (Some (new_reg_x64ope X64_SUFFIX_LONG AX_REG_ID)) (Some (new_reg_x64ope X64_SUFFIX_LONG CX_REG_ID))].
Proof. vm_compute. reflexivity. Qed.
(** tests/x64gen/test_ctrlinst.c test_x64gen_call_ptr_with_evacuation *)
Definition test_x64gen_call_ptr_with_evacuation := inst_test [new_inst_immc IMMC_INST_LOAD (Some (new_signed_reg_immcope IMMC_SUFFIX_QUAD 3)) (Some (new_mem_immcope 8)) None;
   new_inst_immc IMMC_INST_PREP None (Some (new_signed_int_immcope IMMC_SUFFIX_NONE IInt 1)) None;
   new_inst_immc IMMC_INST_STARG (Some (new_signed_arg_immcope IMMC_SUFFIX_LONG 0)) (Some (new_signed_int_immcope IMMC_SUFFIX_LONG IInt 5)) None;
   new_inst_immc IMMC_INST_CALL (Some (new_signed_reg_immcope IMMC_SUFFIX_LONG 0)) (Some (new_ptr_immcope 3)) (Some (new_signed_int_immcope IMMC_SUFFIX_NONE IInt 1));
   new_inst_immc IMMC_INST_CLEAN None (Some (new_signed_int_immcope IMMC_SUFFIX_NONE IInt 1)) None] [mkls [mklv 3 3] 0 (-1); mkls [] 0 (-1); mkls [] 0 (-1); mkls [mklv 0 3] 0 (-1); mkls [] 0 (-1); mkls [] 0 (-1); mkls [] 0 (-1); mkls [] 0 (-1)].
Example test_x64gen_call_ptr_with_evacuation_ok : test_x64gen_call_ptr_with_evacuation = Ok
  [new_inst_x64 X64_INST_MOVX (Some (new_mem_x64ope 8)) (Some (new_reg_x64ope X64_SUFFIX_QUAD DI_REG_ID));
   new_inst_x64 X64_INST_PUSHX (Some (new_signed_int_x64ope X64_SUFFIX_QUAD IInt 5)) None;
   new_inst_x64 X64_INST_MOVX (Some (new_reg_x64ope X64_SUFFIX_QUAD DI_REG_ID)) (Some (new_reg_x64ope X64_SUFFIX_QUAD R10_REG_ID));
   new_inst_x64 X64_INST_POPX None (Some (new_reg_x64ope X64_SUFFIX_QUAD DI_REG_ID));
   new_inst_x64 X64_INST_MOVX (Some (new_signed_int_x64ope X64_SUFFIX_QUAD IInt 0)) (Some (new_reg_x64ope X64_SUFFIX_QUAD AX_REG_ID));
   new_inst_x64 X64_INST_CALL (Some (new_jptr_x64ope R10_REG_ID)) None;
   new_inst_x64 X64_INST_MOVX (Some (new_reg_x64ope X64_SUFFIX_LONG AX_REG_ID)) (Some (new_reg_x64ope X64_SUFFIX_LONG CX_REG_ID))].
Proof. vm_compute. reflexivity. Qed.
(** tests/x64gen/test_ctrlinst.c test_x64gen_call_caller_saved_evacuation *)
Definition test_x64gen_call_caller_saved_evacuation := inst_test [new_inst_immc IMMC_INST_PREP None (Some (new_signed_int_immcope IMMC_SUFFIX_NONE IInt 2)) None;
   new_inst_immc IMMC_INST_STARG (Some (new_signed_arg_immcope IMMC_SUFFIX_LONG 1)) (Some (new_signed_int_immcope IMMC_SUFFIX_LONG IInt 3)) None;
   new_inst_immc IMMC_INST_LOAD (Some (new_signed_reg_immcope IMMC_SUFFIX_LONG 0)) (Some (new_mem_immcope 4)) None;
   new_inst_immc IMMC_INST_STARG (Some (new_signed_arg_immcope IMMC_SUFFIX_LONG 0)) (Some (new_signed_reg_immcope IMMC_SUFFIX_LONG 0)) None;
   new_inst_immc IMMC_INST_CALL (Some (new_signed_reg_immcope IMMC_SUFFIX_LONG 1)) (Some (new_label_immcope [102; 117; 110; 99; 116; 105; 111; 110])) (Some (new_signed_int_immcope IMMC_SUFFIX_NONE IInt 2));
   new_inst_immc IMMC_INST_CLEAN None (Some (new_signed_int_immcope IMMC_SUFFIX_NONE IInt 2)) None] [mkls [mklv 2 3] 0 (-1); mkls [mklv 4 6] 0 (-1); mkls [mklv 0 7] 0 (-1); mkls [] 0 (-1); mkls [] 0 (-1); mkls [] 0 (-1); mkls [] 0 (-1); mkls [] 0 (-1)].
Example test_x64gen_call_caller_saved_evacuation_ok : test_x64gen_call_caller_saved_evacuation = Ok
  [new_inst_x64 X64_INST_PUSHX (Some (new_signed_int_x64ope X64_SUFFIX_QUAD IInt 3)) None;
   new_inst_x64 X64_INST_MOVX (Some (new_mem_x64ope 4)) (Some (new_reg_x64ope X64_SUFFIX_LONG CX_REG_ID));
   new_inst_x64 X64_INST_PUSHX (Some (new_reg_x64ope X64_SUFFIX_QUAD CX_REG_ID)) None;
   new_inst_x64 X64_INST_MOVX (Some (new_reg_x64ope X64_SUFFIX_QUAD SI_REG_ID)) (Some (new_reg_x64ope X64_SUFFIX_QUAD BX_REG_ID));
   new_inst_x64 X64_INST_POPX None (Some (new_reg_x64ope X64_SUFFIX_QUAD DI_REG_ID));
   new_inst_x64 X64_INST_POPX None (Some (new_reg_x64ope X64_SUFFIX_QUAD SI_REG_ID));
   new_inst_x64 X64_INST_MOVX (Some (new_signed_int_x64ope X64_SUFFIX_QUAD IInt 0)) (Some (new_reg_x64ope X64_SUFFIX_QUAD AX_REG_ID));
   new_inst_x64 X64_INST_CALL (Some (new_jlabel_x64ope [102; 117; 110; 99; 116; 105; 111; 110])) None;
   new_inst_x64 X64_INST_MOVX (Some (new_reg_x64ope X64_SUFFIX_QUAD BX_REG_ID)) (Some (new_reg_x64ope X64_SUFFIX_QUAD SI_REG_ID));
   new_inst_x64 X64_INST_MOVX (Some (new_reg_x64ope X64_SUFFIX_LONG AX_REG_ID)) (Some (new_reg_x64ope X64_SUFFIX_LONG DX_REG_ID))].
Proof. vm_compute. reflexivity. Qed.
(** tests/x64gen/test_ctrlinst.c test_x64gen_call_no_return_value *)
Definition test_x64gen_call_no_return_value := inst_test [new_inst_immc IMMC_INST_PREP None (Some (new_signed_int_immcope IMMC_SUFFIX_NONE IInt 1)) None;
   new_inst_immc IMMC_INST_LOAD (Some (new_signed_reg_immcope IMMC_SUFFIX_LONG 0)) (Some (new_mem_immcope 4)) None;
   new_inst_immc IMMC_INST_STARG (Some (new_signed_arg_immcope IMMC_SUFFIX_LONG 0)) (Some (new_signed_reg_immcope IMMC_SUFFIX_LONG 0)) None;
   new_inst_immc IMMC_INST_CALL None (Some (new_label_immcope [102; 117; 110; 99; 116; 105; 111; 110])) (Some (new_signed_int_immcope IMMC_SUFFIX_NONE IInt 1));
   new_inst_immc IMMC_INST_CLEAN None (Some (new_signed_int_immcope IMMC_SUFFIX_NONE IInt 1)) None] [mkls [mklv 1 2] 0 (-1); mkls [] 0 (-1); mkls [] 0 (-1); mkls [] 0 (-1); mkls [] 0 (-1); mkls [] 0 (-1); mkls [] 0 (-1); mkls [] 0 (-1)].
Example test_x64gen_call_no_return_value_ok : test_x64gen_call_no_return_value = Ok
  [new_inst_x64 X64_INST_MOVX (Some (new_mem_x64ope 4)) (Some (new_reg_x64ope X64_SUFFIX_LONG CX_REG_ID));
   new_inst_x64 X64_INST_PUSHX (Some (new_reg_x64ope X64_SUFFIX_QUAD CX_REG_ID)) None;
   new_inst_x64 X64_INST_POPX None (Some (new_reg_x64ope X64_SUFFIX_QUAD DI_REG_ID));
   new_inst_x64 X64_INST_MOVX (Some (new_signed_int_x64ope X64_SUFFIX_QUAD IInt 0)) (Some (new_reg_x64ope X64_SUFFIX_QUAD AX_REG_ID));
   new_inst_x64 X64_INST_CALL (Some (new_jlabel_x64ope [102; 117; 110; 99; 116; 105; 111; 110])) None].
Proof. vm_compute. reflexivity. Qed.
(** tests/x64gen/test_ctrlinst.c test_x64gen_enter_zero *)
Definition test_x64gen_enter_zero := inst_test [new_inst_immc IMMC_INST_ENTER None (Some (new_signed_int_immcope IMMC_SUFFIX_QUAD IInt 0)) None] [mkls [] 0 (-1); mkls [] 0 (-1); mkls [] 0 (-1); mkls [] 0 (-1); mkls [] 0 (-1); mkls [] 0 (-1); mkls [] 0 (-1); mkls [] 0 (-1)].
Example test_x64gen_enter_zero_ok : test_x64gen_enter_zero = Ok
  [new_inst_x64 X64_INST_PUSHX (Some (new_reg_x64ope X64_SUFFIX_QUAD BP_REG_ID)) None;
   new_inst_x64 X64_INST_MOVX (Some (new_reg_x64ope X64_SUFFIX_QUAD SP_REG_ID)) (Some (new_reg_x64ope X64_SUFFIX_QUAD BP_REG_ID))].
Proof. vm_compute. reflexivity. Qed.
(** tests/x64gen/test_ctrlinst.c test_x64gen_enter_non_16bytes_boundary *)
Definition test_x64gen_enter_non_16bytes_boundary := inst_test [new_inst_immc IMMC_INST_ENTER None (Some (new_signed_int_immcope IMMC_SUFFIX_QUAD IInt 31)) None] [mkls [] 0 (-1); mkls [] 0 (-1); mkls [] 0 (-1); mkls [] 0 (-1); mkls [] 0 (-1); mkls [] 0 (-1); mkls [] 0 (-1); mkls [] 0 (-1)].
Example test_x64gen_enter_non_16bytes_boundary_ok : test_x64gen_enter_non_16bytes_boundary = Ok
  [new_inst_x64 X64_INST_PUSHX (Some (new_reg_x64ope X64_SUFFIX_QUAD BP_REG_ID)) None;
   new_inst_x64 X64_INST_MOVX (Some (new_reg_x64ope X64_SUFFIX_QUAD SP_REG_ID)) (Some (new_reg_x64ope X64_SUFFIX_QUAD BP_REG_ID));
   new_inst_x64 X64_INST_SUBX (Some (new_signed_int_x64ope X64_SUFFIX_QUAD IInt 32)) (Some (new_reg_x64ope X64_SUFFIX_QUAD SP_REG_ID))].
Proof. vm_compute. reflexivity. Qed.
(** tests/x64gen/test_ctrlinst.c test_x64gen_enter_16bytes_boundary *)
Definition test_x64gen_enter_16bytes_boundary := inst_test [new_inst_immc IMMC_INST_ENTER None (Some (new_signed_int_immcope IMMC_SUFFIX_QUAD IInt 16)) None] [mkls [] 0 (-1); mkls [] 0 (-1); mkls [] 0 (-1); mkls [] 0 (-1); mkls [] 0 (-1); mkls [] 0 (-1); mkls [] 0 (-1); mkls [] 0 (-1)].
Example test_x64gen_enter_16bytes_boundary_ok : test_x64gen_enter_16bytes_boundary = Ok
  [new_inst_x64 X64_INST_PUSHX (Some (new_reg_x64ope X64_SUFFIX_QUAD BP_REG_ID)) None;
   new_inst_x64 X64_INST_MOVX (Some (new_reg_x64ope X64_SUFFIX_QUAD SP_REG_ID)) (Some (new_reg_x64ope X64_SUFFIX_QUAD BP_REG_ID));
   new_inst_x64 X64_INST_SUBX (Some (new_signed_int_x64ope X64_SUFFIX_QUAD IInt 16)) (Some (new_reg_x64ope X64_SUFFIX_QUAD SP_REG_ID))].
Proof. vm_compute. reflexivity. Qed.
(** tests/x64gen/test_ctrlinst.c test_x64gen_leave_zero *)
Definition test_x64gen_leave_zero := inst_test [new_inst_immc IMMC_INST_LEAVE None (Some (new_signed_int_immcope IMMC_SUFFIX_QUAD IInt 0)) None] [mkls [] 0 (-1); mkls [] 0 (-1); mkls [] 0 (-1); mkls [] 0 (-1); mkls [] 0 (-1); mkls [] 0 (-1); mkls [] 0 (-1); mkls [] 0 (-1)].
Example test_x64gen_leave_zero_ok : test_x64gen_leave_zero = Ok
  [new_inst_x64 X64_INST_POPX None (Some (new_reg_x64ope X64_SUFFIX_QUAD BP_REG_ID));
   new_inst_x64 X64_INST_RET None None].
Proof. vm_compute. reflexivity. Qed.
(** tests/x64gen/test_ctrlinst.c test_x64gen_leave_non_16bytes_boundary *)
Definition test_x64gen_leave_non_16bytes_boundary := inst_test [new_inst_immc IMMC_INST_LEAVE None (Some (new_signed_int_immcope IMMC_SUFFIX_QUAD IInt 31)) None] [mkls [] 0 (-1); mkls [] 0 (-1); mkls [] 0 (-1); mkls [] 0 (-1); mkls [] 0 (-1); mkls [] 0 (-1); mkls [] 0 (-1); mkls [] 0 (-1)].
Example test_x64gen_leave_non_16bytes_boundary_ok : test_x64gen_leave_non_16bytes_boundary = Ok
  [new_inst_x64 X64_INST_ADDX (Some (new_signed_int_x64ope X64_SUFFIX_QUAD IInt 32)) (Some (new_reg_x64ope X64_SUFFIX_QUAD SP_REG_ID));
   new_inst_x64 X64_INST_POPX None (Some (new_reg_x64ope X64_SUFFIX_QUAD BP_REG_ID));
   new_inst_x64 X64_INST_RET None None].
Proof. vm_compute. reflexivity. Qed.
(** tests/x64gen/test_ctrlinst.c test_x64gen_leave_16bytes_boundary *)
Definition test_x64gen_leave_16bytes_boundary := inst_test [new_inst_immc IMMC_INST_LEAVE None (Some (new_signed_int_immcope IMMC_SUFFIX_QUAD IInt 16)) None] [mkls [] 0 (-1); mkls [] 0 (-1); mkls [] 0 (-1); mkls [] 0 (-1); mkls [] 0 (-1); mkls [] 0 (-1); mkls [] 0 (-1); mkls [] 0 (-1)].
Example test_x64gen_leave_16bytes_boundary_ok : test_x64gen_leave_16bytes_boundary = Ok
  [new_inst_x64 X64_INST_ADDX (Some (new_signed_int_x64ope X64_SUFFIX_QUAD IInt 16)) (Some (new_reg_x64ope X64_SUFFIX_QUAD SP_REG_ID));
   new_inst_x64 X64_INST_POPX None (Some (new_reg_x64ope X64_SUFFIX_QUAD BP_REG_ID));
   new_inst_x64 X64_INST_RET None None].
Proof. vm_compute. reflexivity. Qed.
(** tests/x64gen/test_datainst.c test_x64gen_load_int *)
Definition test_x64gen_load_int := inst_test [new_inst_immc IMMC_INST_LOAD (Some (new_signed_reg_immcope IMMC_SUFFIX_QUAD 0)) (Some (new_signed_int_immcope IMMC_SUFFIX_LONG IInt 5)) None] [mkls [mklv 0 0] 0 (-1); mkls [] 0 (-1); mkls [] 0 (-1); mkls [] 0 (-1); mkls [] 0 (-1); mkls [] 0 (-1); mkls [] 0 (-1); mkls [] 0 (-1)].
Example test_x64gen_load_int_ok : test_x64gen_load_int = Ok
  [new_inst_x64 X64_INST_MOVX (Some (new_signed_int_x64ope X64_SUFFIX_QUAD IInt 5)) (Some (new_reg_x64ope X64_SUFFIX_QUAD CX_REG_ID))].
Proof. vm_compute. reflexivity. Qed.
(** tests/x64gen/test_datainst.c test_x64gen_load_reg *)
Definition test_x64gen_load_reg := inst_test [new_inst_immc IMMC_INST_LOAD (Some (new_signed_reg_immcope IMMC_SUFFIX_LONG 1)) (Some (new_signed_reg_immcope IMMC_SUFFIX_QUAD 0)) None] [mkls [mklv 0 0] 0 (-1); mkls [mklv 0 0] 0 (-1); mkls [] 0 (-1); mkls [] 0 (-1); mkls [] 0 (-1); mkls [] 0 (-1); mkls [] 0 (-1); mkls [] 0 (-1)].
Example test_x64gen_load_reg_ok : test_x64gen_load_reg = Ok
  [new_inst_x64 X64_INST_MOVX (Some (new_reg_x64ope X64_SUFFIX_LONG CX_REG_ID)) (Some (new_reg_x64ope X64_SUFFIX_LONG DX_REG_ID))].
Proof. vm_compute. reflexivity. Qed.
(** tests/x64gen/test_datainst.c test_x64gen_load_ptr *)
Definition test_x64gen_load_ptr := inst_test [new_inst_immc IMMC_INST_LOAD (Some (new_signed_reg_immcope IMMC_SUFFIX_LONG 1)) (Some (new_ptr_immcope 0)) None] [mkls [mklv 0 0] 0 (-1); mkls [mklv 0 0] 0 (-1); mkls [] 0 (-1); mkls [] 0 (-1); mkls [] 0 (-1); mkls [] 0 (-1); mkls [] 0 (-1); mkls [] 0 (-1)].
Example test_x64gen_load_ptr_ok : test_x64gen_load_ptr = Ok
  [new_inst_x64 X64_INST_MOVX (Some (new_ptr_x64ope CX_REG_ID)) (Some (new_reg_x64ope X64_SUFFIX_LONG DX_REG_ID))].
Proof. vm_compute. reflexivity. Qed.
(** tests/x64gen/test_datainst.c test_x64gen_load_mem *)
Definition test_x64gen_load_mem := inst_test [new_inst_immc IMMC_INST_LOAD (Some (new_signed_reg_immcope IMMC_SUFFIX_LONG 0)) (Some (new_mem_immcope 4)) None] [mkls [mklv 0 0] 0 (-1); mkls [] 0 (-1); mkls [] 0 (-1); mkls [] 0 (-1); mkls [] 0 (-1); mkls [] 0 (-1); mkls [] 0 (-1); mkls [] 0 (-1)].
Example test_x64gen_load_mem_ok : test_x64gen_load_mem = Ok
  [new_inst_x64 X64_INST_MOVX (Some (new_mem_x64ope 4)) (Some (new_reg_x64ope X64_SUFFIX_LONG CX_REG_ID))].
Proof. vm_compute. reflexivity. Qed.
(** tests/x64gen/test_datainst.c test_x64gen_load_label *)
Definition test_x64gen_load_label := inst_test [new_inst_immc IMMC_INST_LOAD (Some (new_signed_reg_immcope IMMC_SUFFIX_LONG 0)) (Some (new_label_immcope [118; 97; 114; 105; 97; 98; 108; 101])) None] [mkls [mklv 0 0] 0 (-1); mkls [] 0 (-1); mkls [] 0 (-1); mkls [] 0 (-1); mkls [] 0 (-1); mkls [] 0 (-1); mkls [] 0 (-1); mkls [] 0 (-1)].
Example test_x64gen_load_label_ok : test_x64gen_load_label = Ok
  [new_inst_x64 X64_INST_MOVX (Some (new_label_x64ope [118; 97; 114; 105; 97; 98; 108; 101])) (Some (new_reg_x64ope X64_SUFFIX_LONG CX_REG_ID))].
Proof. vm_compute. reflexivity. Qed.
(** tests/x64gen/test_datainst.c test_x64gen_addr_mem *)
Definition test_x64gen_addr_mem := inst_test [new_inst_immc IMMC_INST_ADDR (Some (new_signed_reg_immcope IMMC_SUFFIX_QUAD 0)) (Some (new_mem_immcope 4)) None] [mkls [mklv 0 0] 0 (-1); mkls [] 0 (-1); mkls [] 0 (-1); mkls [] 0 (-1); mkls [] 0 (-1); mkls [] 0 (-1); mkls [] 0 (-1); mkls [] 0 (-1)].
Example test_x64gen_addr_mem_ok : test_x64gen_addr_mem = Ok
  [new_inst_x64 X64_INST_LEAX (Some (new_mem_x64ope 4)) (Some (new_reg_x64ope X64_SUFFIX_QUAD CX_REG_ID))].
Proof. vm_compute. reflexivity. Qed.
(** tests/x64gen/test_datainst.c test_x64gen_addr_label *)
Definition test_x64gen_addr_label := inst_test [new_inst_immc IMMC_INST_ADDR (Some (new_signed_reg_immcope IMMC_SUFFIX_QUAD 0)) (Some (new_label_immcope [118; 97; 114; 105; 97; 98; 108; 101])) None] [mkls [mklv 0 0] 0 (-1); mkls [] 0 (-1); mkls [] 0 (-1); mkls [] 0 (-1); mkls [] 0 (-1); mkls [] 0 (-1); mkls [] 0 (-1); mkls [] 0 (-1)].
Example test_x64gen_addr_label_ok : test_x64gen_addr_label = Ok
  [new_inst_x64 X64_INST_LEAX (Some (new_label_x64ope [118; 97; 114; 105; 97; 98; 108; 101])) (Some (new_reg_x64ope X64_SUFFIX_QUAD CX_REG_ID))].
Proof. vm_compute. reflexivity. Qed.
(** tests/x64gen/test_datainst.c test_x64gen_str_byte *)
Definition test_x64gen_str_byte := inst_test [new_inst_immc IMMC_INST_STR (Some (new_mem_immcope 4)) (Some (new_str_immcope [0])) None] [mkls [] 0 (-1); mkls [] 0 (-1); mkls [] 0 (-1); mkls [] 0 (-1); mkls [] 0 (-1); mkls [] 0 (-1); mkls [] 0 (-1); mkls [] 0 (-1)].
Example test_x64gen_str_byte_ok : test_x64gen_str_byte = Ok
  [new_inst_x64 X64_INST_MOVX (Some (new_unsigned_int_x64ope X64_SUFFIX_BYTE IUInt 0)) (Some (new_mem_x64ope 4))].
Proof. vm_compute. reflexivity. Qed.
(** tests/x64gen/test_datainst.c test_x64gen_str_word *)
Definition test_x64gen_str_word := inst_test [new_inst_immc IMMC_INST_STR (Some (new_mem_immcope 12)) (Some (new_str_immcope [49; 50; 51; 52; 53; 54; 55; 56; 57; 0])) None] [mkls [] 0 (-1); mkls [] 0 (-1); mkls [] 0 (-1); mkls [] 0 (-1); mkls [] 0 (-1); mkls [] 0 (-1); mkls [] 0 (-1); mkls [] 0 (-1)].
Example test_x64gen_str_word_ok : test_x64gen_str_word = Ok
  [new_inst_x64 X64_INST_MOVABSX (Some (new_unsigned_int_x64ope X64_SUFFIX_QUAD IULongLong 4050765991979987505)) (Some (new_reg_x64ope X64_SUFFIX_QUAD R10_REG_ID));
   new_inst_x64 X64_INST_MOVX (Some (new_reg_x64ope X64_SUFFIX_QUAD R10_REG_ID)) (Some (new_mem_x64ope 12));
   new_inst_x64 X64_INST_MOVX (Some (new_unsigned_int_x64ope X64_SUFFIX_WORD IUInt 57)) (Some (new_mem_x64ope 4))].
Proof. vm_compute. reflexivity. Qed.
(** tests/x64gen/test_datainst.c test_x64gen_str_long *)
Definition test_x64gen_str_long := inst_test [new_inst_immc IMMC_INST_STR (Some (new_mem_immcope 12)) (Some (new_str_immcope [65; 66; 67; 68; 69; 70; 71; 72; 73; 74; 75; 0])) None] [mkls [] 0 (-1); mkls [] 0 (-1); mkls [] 0 (-1); mkls [] 0 (-1); mkls [] 0 (-1); mkls [] 0 (-1); mkls [] 0 (-1); mkls [] 0 (-1)].
Example test_x64gen_str_long_ok : test_x64gen_str_long = Ok
  [new_inst_x64 X64_INST_MOVABSX (Some (new_unsigned_int_x64ope X64_SUFFIX_QUAD IULongLong 5208208757389214273)) (Some (new_reg_x64ope X64_SUFFIX_QUAD R10_REG_ID));
   new_inst_x64 X64_INST_MOVX (Some (new_reg_x64ope X64_SUFFIX_QUAD R10_REG_ID)) (Some (new_mem_x64ope 12));
   new_inst_x64 X64_INST_MOVX (Some (new_unsigned_int_x64ope X64_SUFFIX_LONG IUInt 4934217)) (Some (new_mem_x64ope 4))].
Proof. vm_compute. reflexivity. Qed.
(** tests/x64gen/test_datainst.c test_x64gen_str_quad *)
Definition test_x64gen_str_quad := inst_test [new_inst_immc IMMC_INST_STR (Some (new_mem_immcope 16)) (Some (new_str_immcope [65; 66; 67; 68; 69; 70; 71; 72; 73; 74; 75; 76; 77; 78; 79; 0])) None] [mkls [] 0 (-1); mkls [] 0 (-1); mkls [] 0 (-1); mkls [] 0 (-1); mkls [] 0 (-1); mkls [] 0 (-1); mkls [] 0 (-1); mkls [] 0 (-1)].
Example test_x64gen_str_quad_ok : test_x64gen_str_quad = Ok
  [new_inst_x64 X64_INST_MOVABSX (Some (new_unsigned_int_x64ope X64_SUFFIX_QUAD IULongLong 5208208757389214273)) (Some (new_reg_x64ope X64_SUFFIX_QUAD R10_REG_ID));
   new_inst_x64 X64_INST_MOVX (Some (new_reg_x64ope X64_SUFFIX_QUAD R10_REG_ID)) (Some (new_mem_x64ope 16));
   new_inst_x64 X64_INST_MOVABSX (Some (new_unsigned_int_x64ope X64_SUFFIX_QUAD IULongLong 22322617059592777)) (Some (new_reg_x64ope X64_SUFFIX_QUAD R10_REG_ID));
   new_inst_x64 X64_INST_MOVX (Some (new_reg_x64ope X64_SUFFIX_QUAD R10_REG_ID)) (Some (new_mem_x64ope 8))].
Proof. vm_compute. reflexivity. Qed.
(** tests/x64gen/test_datainst.c test_x64gen_str_other *)
Definition test_x64gen_str_other := inst_test [new_inst_immc IMMC_INST_STR (Some (new_mem_immcope 12)) (Some (new_str_immcope [65; 66; 67; 68; 69; 70; 71; 72; 73; 74; 75; 76; 0])) None] [mkls [] 0 (-1); mkls [] 0 (-1); mkls [] 0 (-1); mkls [] 0 (-1); mkls [] 0 (-1); mkls [] 0 (-1); mkls [] 0 (-1); mkls [] 0 (-1)].
Example test_x64gen_str_other_ok : test_x64gen_str_other = Ok
  [new_inst_x64 X64_INST_MOVABSX (Some (new_unsigned_int_x64ope X64_SUFFIX_QUAD IULongLong 5208208757389214273)) (Some (new_reg_x64ope X64_SUFFIX_QUAD R10_REG_ID));
   new_inst_x64 X64_INST_MOVX (Some (new_reg_x64ope X64_SUFFIX_QUAD R10_REG_ID)) (Some (new_mem_x64ope 12));
   new_inst_x64 X64_INST_MOVABSX (Some (new_unsigned_int_x64ope X64_SUFFIX_QUAD IULong 1280002633)) (Some (new_reg_x64ope X64_SUFFIX_QUAD R10_REG_ID));
   new_inst_x64 X64_INST_MOVX (Some (new_reg_x64ope X64_SUFFIX_QUAD R10_REG_ID)) (Some (new_mem_x64ope 4))].
Proof. vm_compute. reflexivity. Qed.
(** tests/x64gen/test_datainst.c test_x64gen_store_int_ptr *)
Definition test_x64gen_store_int_ptr := inst_test [new_inst_immc IMMC_INST_STORE (Some (new_ptr_immcope 0)) (Some (new_signed_int_immcope IMMC_SUFFIX_LONG IInt 8)) None] [mkls [mklv 0 0] 0 (-1); mkls [] 0 (-1); mkls [] 0 (-1); mkls [] 0 (-1); mkls [] 0 (-1); mkls [] 0 (-1); mkls [] 0 (-1); mkls [] 0 (-1)].
Example test_x64gen_store_int_ptr_ok : test_x64gen_store_int_ptr = Ok
  [new_inst_x64 X64_INST_MOVX (Some (new_signed_int_x64ope X64_SUFFIX_LONG IInt 8)) (Some (new_ptr_x64ope CX_REG_ID))].
Proof. vm_compute. reflexivity. Qed.
(** tests/x64gen/test_datainst.c test_x64gen_store_int_mem *)
Definition test_x64gen_store_int_mem := inst_test [new_inst_immc IMMC_INST_STORE (Some (new_mem_immcope 4)) (Some (new_signed_int_immcope IMMC_SUFFIX_LONG IInt 8)) None] [mkls [] 0 (-1); mkls [] 0 (-1); mkls [] 0 (-1); mkls [] 0 (-1); mkls [] 0 (-1); mkls [] 0 (-1); mkls [] 0 (-1); mkls [] 0 (-1)].
Example test_x64gen_store_int_mem_ok : test_x64gen_store_int_mem = Ok
  [new_inst_x64 X64_INST_MOVX (Some (new_signed_int_x64ope X64_SUFFIX_LONG IInt 8)) (Some (new_mem_x64ope 4))].
Proof. vm_compute. reflexivity. Qed.
(** tests/x64gen/test_datainst.c test_x64gen_store_int_label *)
Definition test_x64gen_store_int_label := inst_test [new_inst_immc IMMC_INST_STORE (Some (new_label_immcope [118; 97; 114; 105; 97; 98; 108; 101])) (Some (new_signed_int_immcope IMMC_SUFFIX_LONG IInt 4)) None] [mkls [] 0 (-1); mkls [] 0 (-1); mkls [] 0 (-1); mkls [] 0 (-1); mkls [] 0 (-1); mkls [] 0 (-1); mkls [] 0 (-1); mkls [] 0 (-1)].
Example test_x64gen_store_int_label_ok : test_x64gen_store_int_label = Ok
  [new_inst_x64 X64_INST_MOVX (Some (new_signed_int_x64ope X64_SUFFIX_LONG IInt 4)) (Some (new_label_x64ope [118; 97; 114; 105; 97; 98; 108; 101]))].
Proof. vm_compute. reflexivity. Qed.
(** tests/x64gen/test_datainst.c test_x64gen_store_reg_ptr *)
Definition test_x64gen_store_reg_ptr := inst_test [new_inst_immc IMMC_INST_STORE (Some (new_ptr_immcope 1)) (Some (new_signed_reg_immcope IMMC_SUFFIX_LONG 0)) None] [mkls [mklv 0 0] 0 (-1); mkls [mklv 0 0] 0 (-1); mkls [] 0 (-1); mkls [] 0 (-1); mkls [] 0 (-1); mkls [] 0 (-1); mkls [] 0 (-1); mkls [] 0 (-1)].
Example test_x64gen_store_reg_ptr_ok : test_x64gen_store_reg_ptr = Ok
  [new_inst_x64 X64_INST_MOVX (Some (new_reg_x64ope X64_SUFFIX_LONG CX_REG_ID)) (Some (new_ptr_x64ope DX_REG_ID))].
Proof. vm_compute. reflexivity. Qed.
(** tests/x64gen/test_datainst.c test_x64gen_store_reg_mem *)
Definition test_x64gen_store_reg_mem := inst_test [new_inst_immc IMMC_INST_STORE (Some (new_mem_immcope 4)) (Some (new_signed_reg_immcope IMMC_SUFFIX_BYTE 0)) None] [mkls [mklv 0 0] 0 (-1); mkls [] 0 (-1); mkls [] 0 (-1); mkls [] 0 (-1); mkls [] 0 (-1); mkls [] 0 (-1); mkls [] 0 (-1); mkls [] 0 (-1)].
Example test_x64gen_store_reg_mem_ok : test_x64gen_store_reg_mem = Ok
  [new_inst_x64 X64_INST_MOVX (Some (new_reg_x64ope X64_SUFFIX_BYTE CX_REG_ID)) (Some (new_mem_x64ope 4))].
Proof. vm_compute. reflexivity. Qed.
(** tests/x64gen/test_datainst.c test_x64gen_store_reg_label *)
Definition test_x64gen_store_reg_label := inst_test [new_inst_immc IMMC_INST_STORE (Some (new_label_immcope [118; 97; 114; 105; 97; 98; 108; 101])) (Some (new_signed_reg_immcope IMMC_SUFFIX_LONG 0)) None] [mkls [mklv 0 0] 0 (-1); mkls [] 0 (-1); mkls [] 0 (-1); mkls [] 0 (-1); mkls [] 0 (-1); mkls [] 0 (-1); mkls [] 0 (-1); mkls [] 0 (-1)].
Example test_x64gen_store_reg_label_ok : test_x64gen_store_reg_label = Ok
  [new_inst_x64 X64_INST_MOVX (Some (new_reg_x64ope X64_SUFFIX_LONG CX_REG_ID)) (Some (new_label_x64ope [118; 97; 114; 105; 97; 98; 108; 101]))].
Proof. vm_compute. reflexivity. Qed.
(** tests/x64gen/test_datainst.c test_x64gen_ldarg_sixth_or_less *)
Definition test_x64gen_ldarg_sixth_or_less := inst_test [new_inst_immc IMMC_INST_LDARG (Some (new_mem_immcope 24)) (Some (new_signed_arg_immcope IMMC_SUFFIX_LONG 5)) None;
   new_inst_immc IMMC_INST_LDARG (Some (new_mem_immcope 20)) (Some (new_signed_arg_immcope IMMC_SUFFIX_LONG 4)) None] [mkls [] 0 (-1); mkls [] 0 (-1); mkls [] 0 (-1); mkls [] 0 (-1); mkls [] 0 (-1); mkls [] 0 (-1); mkls [] 0 (-1); mkls [] 0 (-1)].
Example test_x64gen_ldarg_sixth_or_less_ok : test_x64gen_ldarg_sixth_or_less = Ok
  [new_inst_x64 X64_INST_MOVX (Some (new_reg_x64ope X64_SUFFIX_LONG R9_REG_ID)) (Some (new_mem_x64ope 24));
   new_inst_x64 X64_INST_MOVX (Some (new_reg_x64ope X64_SUFFIX_LONG R8_REG_ID)) (Some (new_mem_x64ope 20))].
Proof. vm_compute. reflexivity. Qed.
(** tests/x64gen/test_datainst.c test_x64gen_ldarg_seventh_or_more *)
Definition test_x64gen_ldarg_seventh_or_more := inst_test [new_inst_immc IMMC_INST_LDARG (Some (new_mem_immcope 32)) (Some (new_signed_arg_immcope IMMC_SUFFIX_QUAD 6)) None;
   new_inst_immc IMMC_INST_LDARG (Some (new_mem_immcope 36)) (Some (new_signed_arg_immcope IMMC_SUFFIX_LONG 7)) None] [mkls [] 0 (-1); mkls [] 0 (-1); mkls [] 0 (-1); mkls [] 0 (-1); mkls [] 0 (-1); mkls [] 0 (-1); mkls [] 0 (-1); mkls [] 0 (-1)].
Example test_x64gen_ldarg_seventh_or_more_ok : test_x64gen_ldarg_seventh_or_more = Ok
  [new_inst_x64 X64_INST_MOVX (Some (new_mem_x64ope (-16))) (Some (new_reg_x64ope X64_SUFFIX_QUAD R10_REG_ID));
   new_inst_x64 X64_INST_MOVX (Some (new_reg_x64ope X64_SUFFIX_QUAD R10_REG_ID)) (Some (new_mem_x64ope 32));
   new_inst_x64 X64_INST_MOVX (Some (new_mem_x64ope (-24))) (Some (new_reg_x64ope X64_SUFFIX_LONG R10_REG_ID));
   new_inst_x64 X64_INST_MOVX (Some (new_reg_x64ope X64_SUFFIX_LONG R10_REG_ID)) (Some (new_mem_x64ope 36))].
Proof. vm_compute. reflexivity. Qed.
(** tests/x64gen/test_datainst.c test_x64gen_starg_int *)
Definition test_x64gen_starg_int := inst_test [new_inst_immc IMMC_INST_STARG (Some (new_signed_arg_immcope IMMC_SUFFIX_LONG 0)) (Some (new_signed_int_immcope IMMC_SUFFIX_LONG IInt 6)) None] [mkls [] 0 (-1); mkls [] 0 (-1); mkls [] 0 (-1); mkls [] 0 (-1); mkls [] 0 (-1); mkls [] 0 (-1); mkls [] 0 (-1); mkls [] 0 (-1)].
Example test_x64gen_starg_int_ok : test_x64gen_starg_int = Ok
  [new_inst_x64 X64_INST_PUSHX (Some (new_signed_int_x64ope X64_SUFFIX_QUAD IInt 6)) None].
Proof. vm_compute. reflexivity. Qed.
(** tests/x64gen/test_datainst.c test_x64gen_starg_reg *)
Definition test_x64gen_starg_reg := inst_test [new_inst_immc IMMC_INST_STARG (Some (new_signed_arg_immcope IMMC_SUFFIX_BYTE 0)) (Some (new_signed_reg_immcope IMMC_SUFFIX_BYTE 0)) None] [mkls [mklv 0 0] 0 (-1); mkls [] 0 (-1); mkls [] 0 (-1); mkls [] 0 (-1); mkls [] 0 (-1); mkls [] 0 (-1); mkls [] 0 (-1); mkls [] 0 (-1)].
Example test_x64gen_starg_reg_ok : test_x64gen_starg_reg = Ok
  [new_inst_x64 X64_INST_PUSHX (Some (new_reg_x64ope X64_SUFFIX_QUAD CX_REG_ID)) None].
Proof. vm_compute. reflexivity. Qed.
(** tests/x64gen/test_datainst.c test_x64gen_stret_int *)
Definition test_x64gen_stret_int := inst_test [new_inst_immc IMMC_INST_STRET None (Some (new_signed_int_immcope IMMC_SUFFIX_LONG IInt 5)) None] [mkls [] 0 (-1); mkls [] 0 (-1); mkls [] 0 (-1); mkls [] 0 (-1); mkls [] 0 (-1); mkls [] 0 (-1); mkls [] 0 (-1); mkls [] 0 (-1)].
Example test_x64gen_stret_int_ok : test_x64gen_stret_int = Ok
  [new_inst_x64 X64_INST_MOVX (Some (new_signed_int_x64ope X64_SUFFIX_LONG IInt 5)) (Some (new_reg_x64ope X64_SUFFIX_LONG AX_REG_ID))].
Proof. vm_compute. reflexivity. Qed.
(** tests/x64gen/test_datainst.c test_x64gen_stret_reg *)
Definition test_x64gen_stret_reg := inst_test [new_inst_immc IMMC_INST_STRET None (Some (new_signed_reg_immcope IMMC_SUFFIX_QUAD 0)) None] [mkls [mklv 0 0] 0 (-1); mkls [] 0 (-1); mkls [] 0 (-1); mkls [] 0 (-1); mkls [] 0 (-1); mkls [] 0 (-1); mkls [] 0 (-1); mkls [] 0 (-1)].
Example test_x64gen_stret_reg_ok : test_x64gen_stret_reg = Ok
  [new_inst_x64 X64_INST_MOVX (Some (new_reg_x64ope X64_SUFFIX_QUAD CX_REG_ID)) (Some (new_reg_x64ope X64_SUFFIX_QUAD AX_REG_ID))].
Proof. vm_compute. reflexivity. Qed.
(** tests/x64gen/test_logicinst.c test_x64gen_and_reg_int *)
Definition test_x64gen_and_reg_int := inst_test [new_inst_immc IMMC_INST_LOAD (Some (new_signed_reg_immcope IMMC_SUFFIX_LONG 0)) (Some (new_mem_immcope 4)) None;
   new_inst_immc IMMC_INST_AND (Some (new_signed_reg_immcope IMMC_SUFFIX_LONG 0)) (Some (new_signed_reg_immcope IMMC_SUFFIX_LONG 0)) (Some (new_signed_int_immcope IMMC_SUFFIX_LONG IInt 1))] [mkls [mklv 0 1; mklv 1 2] 0 (-1); mkls [] 0 (-1); mkls [] 0 (-1); mkls [] 0 (-1); mkls [] 0 (-1); mkls [] 0 (-1); mkls [] 0 (-1); mkls [] 0 (-1)].
Example test_x64gen_and_reg_int_ok : test_x64gen_and_reg_int = Ok
  [new_inst_x64 X64_INST_MOVX (Some (new_mem_x64ope 4)) (Some (new_reg_x64ope X64_SUFFIX_LONG CX_REG_ID));
   new_inst_x64 X64_INST_ANDX (Some (new_signed_int_x64ope X64_SUFFIX_LONG IInt 1)) (Some (new_reg_x64ope X64_SUFFIX_LONG CX_REG_ID))].
Proof. vm_compute. reflexivity. Qed.
(** tests/x64gen/test_logicinst.c test_x64gen_and_reg_reg *)
Definition test_x64gen_and_reg_reg := inst_test [new_inst_immc IMMC_INST_LOAD (Some (new_signed_reg_immcope IMMC_SUFFIX_QUAD 0)) (Some (new_mem_immcope 8)) None;
   new_inst_immc IMMC_INST_LOAD (Some (new_signed_reg_immcope IMMC_SUFFIX_LONG 1)) (Some (new_mem_immcope 12)) None;
   new_inst_immc IMMC_INST_AND (Some (new_signed_reg_immcope IMMC_SUFFIX_QUAD 0)) (Some (new_signed_reg_immcope IMMC_SUFFIX_QUAD 0)) (Some (new_signed_reg_immcope IMMC_SUFFIX_LONG 1))] [mkls [mklv 0 2; mklv 2 2] 0 (-1); mkls [mklv 1 2] 0 (-1); mkls [] 0 (-1); mkls [] 0 (-1); mkls [] 0 (-1); mkls [] 0 (-1); mkls [] 0 (-1); mkls [] 0 (-1)].
Example test_x64gen_and_reg_reg_ok : test_x64gen_and_reg_reg = Ok
  [new_inst_x64 X64_INST_MOVX (Some (new_mem_x64ope 8)) (Some (new_reg_x64ope X64_SUFFIX_QUAD CX_REG_ID));
   new_inst_x64 X64_INST_MOVX (Some (new_mem_x64ope 12)) (Some (new_reg_x64ope X64_SUFFIX_LONG DX_REG_ID));
   new_inst_x64 X64_INST_MOVX (Some (new_reg_x64ope X64_SUFFIX_LONG DX_REG_ID)) (Some (new_reg_x64ope X64_SUFFIX_LONG AX_REG_ID));
   new_inst_x64 X64_INST_CXTX (Some (new_suffix_x64ope X64_SUFFIX_LONG)) (Some (new_suffix_x64ope X64_SUFFIX_QUAD));
   new_inst_x64 X64_INST_MOVX (Some (new_reg_x64ope X64_SUFFIX_QUAD AX_REG_ID)) (Some (new_reg_x64ope X64_SUFFIX_QUAD DX_REG_ID));
   new_inst_x64 X64_INST_ANDX (Some (new_reg_x64ope X64_SUFFIX_QUAD DX_REG_ID)) (Some (new_reg_x64ope X64_SUFFIX_QUAD CX_REG_ID))].
Proof. vm_compute. reflexivity. Qed.
(** tests/x64gen/test_logicinst.c test_x64gen_not_int *)
Definition test_x64gen_not_int := inst_test [new_inst_immc IMMC_INST_NOT (Some (new_signed_reg_immcope IMMC_SUFFIX_LONG 0)) (Some (new_signed_int_immcope IMMC_SUFFIX_LONG IInt 1)) None] [mkls [mklv 0 1] 0 (-1); mkls [] 0 (-1); mkls [] 0 (-1); mkls [] 0 (-1); mkls [] 0 (-1); mkls [] 0 (-1); mkls [] 0 (-1); mkls [] 0 (-1)].
Example test_x64gen_not_int_ok : test_x64gen_not_int = Ok
  [new_inst_x64 X64_INST_MOVX (Some (new_signed_int_x64ope X64_SUFFIX_LONG IInt 1)) (Some (new_reg_x64ope X64_SUFFIX_LONG CX_REG_ID));
   new_inst_x64 X64_INST_NOTX None (Some (new_reg_x64ope X64_SUFFIX_LONG CX_REG_ID))].
Proof. vm_compute. reflexivity. Qed.
(** tests/x64gen/test_logicinst.c test_x64gen_not_reg *)
Definition test_x64gen_not_reg := inst_test [new_inst_immc IMMC_INST_LOAD (Some (new_signed_reg_immcope IMMC_SUFFIX_LONG 0)) (Some (new_mem_immcope 4)) None;
   new_inst_immc IMMC_INST_NOT (Some (new_signed_reg_immcope IMMC_SUFFIX_LONG 0)) (Some (new_signed_reg_immcope IMMC_SUFFIX_LONG 0)) None] [mkls [mklv 0 1; mklv 1 1] 0 (-1); mkls [] 0 (-1); mkls [] 0 (-1); mkls [] 0 (-1); mkls [] 0 (-1); mkls [] 0 (-1); mkls [] 0 (-1); mkls [] 0 (-1)].
Example test_x64gen_not_reg_ok : test_x64gen_not_reg = Ok
  [new_inst_x64 X64_INST_MOVX (Some (new_mem_x64ope 4)) (Some (new_reg_x64ope X64_SUFFIX_LONG CX_REG_ID));
   new_inst_x64 X64_INST_NOTX None (Some (new_reg_x64ope X64_SUFFIX_LONG CX_REG_ID))].
Proof. vm_compute. reflexivity. Qed.
(** tests/x64gen/test_logicinst.c test_x64gen_or_reg_int *)
Definition test_x64gen_or_reg_int := inst_test [new_inst_immc IMMC_INST_LOAD (Some (new_signed_reg_immcope IMMC_SUFFIX_BYTE 0)) (Some (new_mem_immcope 4)) None;
   new_inst_immc IMMC_INST_OR (Some (new_signed_reg_immcope IMMC_SUFFIX_LONG 0)) (Some (new_signed_reg_immcope IMMC_SUFFIX_BYTE 0)) (Some (new_signed_int_immcope IMMC_SUFFIX_LONG IInt 1))] [mkls [mklv 0 1; mklv 1 2] 0 (-1); mkls [] 0 (-1); mkls [] 0 (-1); mkls [] 0 (-1); mkls [] 0 (-1); mkls [] 0 (-1); mkls [] 0 (-1); mkls [] 0 (-1)].
Example test_x64gen_or_reg_int_ok : test_x64gen_or_reg_int = Ok
  [new_inst_x64 X64_INST_MOVX (Some (new_mem_x64ope 4)) (Some (new_reg_x64ope X64_SUFFIX_BYTE CX_REG_ID));
   new_inst_x64 X64_INST_MOVSXX (Some (new_reg_x64ope X64_SUFFIX_BYTE CX_REG_ID)) (Some (new_reg_x64ope X64_SUFFIX_LONG CX_REG_ID));
   new_inst_x64 X64_INST_ORX (Some (new_signed_int_x64ope X64_SUFFIX_LONG IInt 1)) (Some (new_reg_x64ope X64_SUFFIX_LONG CX_REG_ID))].
Proof. vm_compute. reflexivity. Qed.
(** tests/x64gen/test_logicinst.c test_x64gen_or_reg_reg *)
Definition test_x64gen_or_reg_reg := inst_test [new_inst_immc IMMC_INST_LOAD (Some (new_signed_reg_immcope IMMC_SUFFIX_QUAD 0)) (Some (new_mem_immcope 8)) None;
   new_inst_immc IMMC_INST_LOAD (Some (new_signed_reg_immcope IMMC_SUFFIX_QUAD 1)) (Some (new_mem_immcope 16)) None;
   new_inst_immc IMMC_INST_OR (Some (new_signed_reg_immcope IMMC_SUFFIX_QUAD 0)) (Some (new_signed_reg_immcope IMMC_SUFFIX_QUAD 0)) (Some (new_signed_reg_immcope IMMC_SUFFIX_QUAD 1))] [mkls [mklv 0 2; mklv 2 2] 0 (-1); mkls [mklv 1 2] 0 (-1); mkls [] 0 (-1); mkls [] 0 (-1); mkls [] 0 (-1); mkls [] 0 (-1); mkls [] 0 (-1); mkls [] 0 (-1)].
Example test_x64gen_or_reg_reg_ok : test_x64gen_or_reg_reg = Ok
  [new_inst_x64 X64_INST_MOVX (Some (new_mem_x64ope 8)) (Some (new_reg_x64ope X64_SUFFIX_QUAD CX_REG_ID));
   new_inst_x64 X64_INST_MOVX (Some (new_mem_x64ope 16)) (Some (new_reg_x64ope X64_SUFFIX_QUAD DX_REG_ID));
   new_inst_x64 X64_INST_ORX (Some (new_reg_x64ope X64_SUFFIX_QUAD DX_REG_ID)) (Some (new_reg_x64ope X64_SUFFIX_QUAD CX_REG_ID))].
Proof. vm_compute. reflexivity. Qed.
(** tests/x64gen/test_logicinst.c test_x64gen_xor_reg_int *)
Definition test_x64gen_xor_reg_int := inst_test [new_inst_immc IMMC_INST_LOAD (Some (new_signed_reg_immcope IMMC_SUFFIX_LONG 0)) (Some (new_mem_immcope 4)) None;
   new_inst_immc IMMC_INST_XOR (Some (new_signed_reg_immcope IMMC_SUFFIX_LONG 0)) (Some (new_signed_reg_immcope IMMC_SUFFIX_LONG 0)) (Some (new_signed_int_immcope IMMC_SUFFIX_LONG IInt 1))] [mkls [mklv 0 1; mklv 1 2] 0 (-1); mkls [] 0 (-1); mkls [] 0 (-1); mkls [] 0 (-1); mkls [] 0 (-1); mkls [] 0 (-1); mkls [] 0 (-1); mkls [] 0 (-1)].
Example test_x64gen_xor_reg_int_ok : test_x64gen_xor_reg_int = Ok
  [new_inst_x64 X64_INST_MOVX (Some (new_mem_x64ope 4)) (Some (new_reg_x64ope X64_SUFFIX_LONG CX_REG_ID));
   new_inst_x64 X64_INST_XORX (Some (new_signed_int_x64ope X64_SUFFIX_LONG IInt 1)) (Some (new_reg_x64ope X64_SUFFIX_LONG CX_REG_ID))].
Proof. vm_compute. reflexivity. Qed.
(** tests/x64gen/test_logicinst.c test_x64gen_xor_reg_reg *)
Definition test_x64gen_xor_reg_reg := inst_test [new_inst_immc IMMC_INST_LOAD (Some (new_signed_reg_immcope IMMC_SUFFIX_BYTE 0)) (Some (new_mem_immcope 4)) None;
   new_inst_immc IMMC_INST_LOAD (Some (new_signed_reg_immcope IMMC_SUFFIX_LONG 1)) (Some (new_mem_immcope 8)) None;
   new_inst_immc IMMC_INST_XOR (Some (new_signed_reg_immcope IMMC_SUFFIX_LONG 0)) (Some (new_signed_reg_immcope IMMC_SUFFIX_BYTE 0)) (Some (new_signed_reg_immcope IMMC_SUFFIX_LONG 1))] [mkls [mklv 0 2; mklv 2 2] 0 (-1); mkls [mklv 1 2] 0 (-1); mkls [] 0 (-1); mkls [] 0 (-1); mkls [] 0 (-1); mkls [] 0 (-1); mkls [] 0 (-1); mkls [] 0 (-1)].
Example test_x64gen_xor_reg_reg_ok : test_x64gen_xor_reg_reg = Ok
  [new_inst_x64 X64_INST_MOVX (Some (new_mem_x64ope 4)) (Some (new_reg_x64ope X64_SUFFIX_BYTE CX_REG_ID));
   new_inst_x64 X64_INST_MOVX (Some (new_mem_x64ope 8)) (Some (new_reg_x64ope X64_SUFFIX_LONG DX_REG_ID));
   new_inst_x64 X64_INST_MOVSXX (Some (new_reg_x64ope X64_SUFFIX_BYTE CX_REG_ID)) (Some (new_reg_x64ope X64_SUFFIX_LONG CX_REG_ID));
   new_inst_x64 X64_INST_XORX (Some (new_reg_x64ope X64_SUFFIX_LONG DX_REG_ID)) (Some (new_reg_x64ope X64_SUFFIX_LONG CX_REG_ID))].
Proof. vm_compute. reflexivity. Qed.
(** tests/x64gen/test_shrotinst.c test_x64gen_sal_reg_int *)
Definition test_x64gen_sal_reg_int := inst_test [new_inst_immc IMMC_INST_LOAD (Some (new_signed_reg_immcope IMMC_SUFFIX_BYTE 0)) (Some (new_mem_immcope 4)) None;
   new_inst_immc IMMC_INST_SAL (Some (new_signed_reg_immcope IMMC_SUFFIX_LONG 0)) (Some (new_signed_reg_immcope IMMC_SUFFIX_BYTE 0)) (Some (new_signed_int_immcope IMMC_SUFFIX_LONG IInt 2))] [mkls [mklv 0 1; mklv 1 1] 0 (-1); mkls [] 0 (-1); mkls [] 0 (-1); mkls [] 0 (-1); mkls [] 0 (-1); mkls [] 0 (-1); mkls [] 0 (-1); mkls [] 0 (-1)].
Example test_x64gen_sal_reg_int_ok : test_x64gen_sal_reg_int = Ok
  [new_inst_x64 X64_INST_MOVX (Some (new_mem_x64ope 4)) (Some (new_reg_x64ope X64_SUFFIX_BYTE CX_REG_ID));
   new_inst_x64 X64_INST_MOVSXX (Some (new_reg_x64ope X64_SUFFIX_BYTE CX_REG_ID)) (Some (new_reg_x64ope X64_SUFFIX_LONG CX_REG_ID));
   new_inst_x64 X64_INST_SALX (Some (new_signed_int_x64ope X64_SUFFIX_LONG IInt 2)) (Some (new_reg_x64ope X64_SUFFIX_LONG CX_REG_ID))].
Proof. vm_compute. reflexivity. Qed.
(** tests/x64gen/test_shrotinst.c test_x64gen_sar_reg_int *)
Definition test_x64gen_sar_reg_int := inst_test [new_inst_immc IMMC_INST_LOAD (Some (new_signed_reg_immcope IMMC_SUFFIX_LONG 0)) (Some (new_mem_immcope 4)) None;
   new_inst_immc IMMC_INST_SAR (Some (new_signed_reg_immcope IMMC_SUFFIX_QUAD 0)) (Some (new_signed_reg_immcope IMMC_SUFFIX_LONG 0)) (Some (new_signed_int_immcope IMMC_SUFFIX_LONG IInt 3))] [mkls [mklv 0 1; mklv 1 1] 0 (-1); mkls [] 0 (-1); mkls [] 0 (-1); mkls [] 0 (-1); mkls [] 0 (-1); mkls [] 0 (-1); mkls [] 0 (-1); mkls [] 0 (-1)].
Example test_x64gen_sar_reg_int_ok : test_x64gen_sar_reg_int = Ok
  [new_inst_x64 X64_INST_MOVX (Some (new_mem_x64ope 4)) (Some (new_reg_x64ope X64_SUFFIX_LONG CX_REG_ID));
   new_inst_x64 X64_INST_SARX (Some (new_signed_int_x64ope X64_SUFFIX_LONG IInt 3)) (Some (new_reg_x64ope X64_SUFFIX_LONG CX_REG_ID));
   new_inst_x64 X64_INST_MOVX (Some (new_reg_x64ope X64_SUFFIX_LONG CX_REG_ID)) (Some (new_reg_x64ope X64_SUFFIX_LONG AX_REG_ID));
   new_inst_x64 X64_INST_CXTX (Some (new_suffix_x64ope X64_SUFFIX_LONG)) (Some (new_suffix_x64ope X64_SUFFIX_QUAD));
   new_inst_x64 X64_INST_MOVX (Some (new_reg_x64ope X64_SUFFIX_QUAD AX_REG_ID)) (Some (new_reg_x64ope X64_SUFFIX_QUAD CX_REG_ID))].
Proof. vm_compute. reflexivity. Qed.
(** tests/x64gen/test_data.c test_x64gen_data_int *)
Definition test_x64gen_data_int := one_test gen_data_x64code [new_int_data_immc IMMC_DATA_BYTE (new_signed IInt 8)].
Example test_x64gen_data_int_ok : test_x64gen_data_int = Ok
  [new_int_data_x64 X64_DATA_BYTE (new_signed IInt 8)].
Proof. vm_compute. reflexivity. Qed.
(** tests/x64gen/test_data.c test_x64gen_data_int_121 *)
Definition test_x64gen_data_int_121 := one_test gen_data_x64code [new_int_data_immc IMMC_DATA_WORD (new_signed IInt 6)].
Example test_x64gen_data_int_121_ok : test_x64gen_data_int_121 = Ok
  [new_int_data_x64 X64_DATA_WORD (new_signed IInt 6)].
Proof. vm_compute. reflexivity. Qed.
(** tests/x64gen/test_data.c test_x64gen_data_int_122 *)
Definition test_x64gen_data_int_122 := one_test gen_data_x64code [new_int_data_immc IMMC_DATA_LONG (new_signed IInt 19)].
Example test_x64gen_data_int_122_ok : test_x64gen_data_int_122 = Ok
  [new_int_data_x64 X64_DATA_LONG (new_signed IInt 19)].
Proof. vm_compute. reflexivity. Qed.
(** tests/x64gen/test_data.c test_x64gen_data_int_123 *)
Definition test_x64gen_data_int_123 := one_test gen_data_x64code [new_int_data_immc IMMC_DATA_QUAD (new_signed IInt 551)].
Example test_x64gen_data_int_123_ok : test_x64gen_data_int_123 = Ok
  [new_int_data_x64 X64_DATA_QUAD (new_signed IInt 551)].
Proof. vm_compute. reflexivity. Qed.
(** tests/x64gen/test_data.c test_x64gen_data_int_124 *)
Definition test_x64gen_data_int_124 := one_test gen_data_x64code [new_int_data_immc IMMC_DATA_ZERO (new_signed IInt 10)].
Example test_x64gen_data_int_124_ok : test_x64gen_data_int_124 = Ok
  [new_int_data_x64 X64_DATA_ZERO (new_signed IInt 10)].
Proof. vm_compute. reflexivity. Qed.
(** tests/x64gen/test_data.c test_x64gen_data_str *)
Definition test_x64gen_data_str := one_test gen_data_x64code [new_str_data_immc IMMC_DATA_STR [115; 116; 114; 105; 110; 103; 0; 108; 105; 116; 101; 114; 97; 108; 0]].
Example test_x64gen_data_str_ok : test_x64gen_data_str = Ok
  [new_str_data_x64 X64_DATA_STR [115; 116; 114; 105; 110; 103; 0; 108; 105; 116; 101; 114; 97; 108; 0]].
Proof. vm_compute. reflexivity. Qed.
(** tests/x64gen/test_label.c test_x64gen_label *)
Definition test_x64gen_label := one_test gen_label_x64code [new_label_immc IMMC_LABEL_NORMAL IMMC_VIS_NONE [110; 111; 114; 109; 97; 108; 95; 110; 111; 110; 101; 95; 108; 97; 98; 101; 108]].
Example test_x64gen_label_ok : test_x64gen_label = Ok
  [new_label_x64 X64_LABEL_NORMAL X64_VIS_NONE [110; 111; 114; 109; 97; 108; 95; 110; 111; 110; 101; 95; 108; 97; 98; 101; 108]].
Proof. vm_compute. reflexivity. Qed.
(** tests/x64gen/test_label.c test_x64gen_label_127 *)
Definition test_x64gen_label_127 := one_test gen_label_x64code [new_label_immc IMMC_LABEL_FUNCTION IMMC_VIS_NONE [102; 117; 110; 99; 116; 105; 111; 110; 95; 108; 97; 98; 101; 108]].
Example test_x64gen_label_127_ok : test_x64gen_label_127 = Ok
  [new_label_x64 X64_LABEL_FUNCTION X64_VIS_NONE [102; 117; 110; 99; 116; 105; 111; 110; 95; 108; 97; 98; 101; 108]].
Proof. vm_compute. reflexivity. Qed.
(** tests/x64gen/test_label.c test_x64gen_label_128 *)
Definition test_x64gen_label_128 := one_test gen_label_x64code [new_label_immc IMMC_LABEL_VARIABLE IMMC_VIS_NONE [118; 97; 114; 105; 97; 98; 108; 101; 95; 108; 97; 98; 101; 108]].
Example test_x64gen_label_128_ok : test_x64gen_label_128 = Ok
  [new_label_x64 X64_LABEL_VARIABLE X64_VIS_NONE [118; 97; 114; 105; 97; 98; 108; 101; 95; 108; 97; 98; 101; 108]].
Proof. vm_compute. reflexivity. Qed.
(** tests/x64gen/test_label.c test_x64gen_label_129 *)
Definition test_x64gen_label_129 := one_test gen_label_x64code [new_label_immc IMMC_LABEL_NORMAL IMMC_VIS_GLOBAL [103; 108; 111; 98; 97; 108; 95; 108; 97; 98; 101; 108]].
Example test_x64gen_label_129_ok : test_x64gen_label_129 = Ok
  [new_label_x64 X64_LABEL_NORMAL X64_VIS_GLOBAL [103; 108; 111; 98; 97; 108; 95; 108; 97; 98; 101; 108]].
Proof. vm_compute. reflexivity. Qed.
(** tests/x64gen/test_label.c test_x64gen_label_130 *)
Definition test_x64gen_label_130 := one_test gen_label_x64code [new_label_immc IMMC_LABEL_NORMAL IMMC_VIS_LOCAL [108; 111; 99; 97; 108; 95; 108; 97; 98; 101; 108]].
Example test_x64gen_label_130_ok : test_x64gen_label_130 = Ok
  [new_label_x64 X64_LABEL_NORMAL X64_VIS_LOCAL [108; 111; 99; 97; 108; 95; 108; 97; 98; 101; 108]].
Proof. vm_compute. reflexivity. Qed.
(** tests/x64gen/test_x64gen.c test_x64gen_without_evacuation *)
Definition test_x64gen_without_evacuation := x64gen [new_label_immc IMMC_LABEL_VARIABLE IMMC_VIS_GLOBAL [99; 111; 117; 110; 116];
   new_int_data_immc IMMC_DATA_LONG (new_signed IInt 1);
   new_label_immc IMMC_LABEL_FUNCTION IMMC_VIS_GLOBAL [99; 111; 117; 110; 116; 117; 112];
   new_inst_immc IMMC_INST_ENTER None (Some (new_signed_int_immcope IMMC_SUFFIX_QUAD IInt 0)) None;
   new_inst_immc IMMC_INST_LOAD (Some (new_signed_reg_immcope IMMC_SUFFIX_LONG 0)) (Some (new_label_immcope [99; 111; 117; 110; 116])) None;
   new_inst_immc IMMC_INST_ADD (Some (new_signed_reg_immcope IMMC_SUFFIX_LONG 0)) (Some (new_signed_reg_immcope IMMC_SUFFIX_LONG 0)) (Some (new_signed_int_immcope IMMC_SUFFIX_LONG IInt 1));
   new_inst_immc IMMC_INST_STORE (Some (new_label_immcope [99; 111; 117; 110; 116])) (Some (new_signed_reg_immcope IMMC_SUFFIX_LONG 0)) None;
   new_inst_immc IMMC_INST_JMP (Some (new_label_immcope [46; 76; 48])) None None;
   new_label_immc IMMC_LABEL_NORMAL IMMC_VIS_NONE [46; 76; 48];
   new_inst_immc IMMC_INST_LEAVE None (Some (new_signed_int_immcope IMMC_SUFFIX_QUAD IInt 0)) None] [mkls [mklv 4 5; mklv 5 6] 0 (-1); mkls [] 0 (-1); mkls [] 0 (-1); mkls [] 0 (-1); mkls [] 0 (-1); mkls [] 0 (-1); mkls [] 0 (-1); mkls [] 0 (-1)].
Example test_x64gen_without_evacuation_ok : test_x64gen_without_evacuation = Ok
  [new_label_x64 X64_LABEL_VARIABLE X64_VIS_GLOBAL [99; 111; 117; 110; 116];
   new_int_data_x64 X64_DATA_LONG (new_signed IInt 1);
   new_label_x64 X64_LABEL_FUNCTION X64_VIS_GLOBAL [99; 111; 117; 110; 116; 117; 112];
   new_inst_x64 X64_INST_PUSHX (Some (new_reg_x64ope X64_SUFFIX_QUAD BP_REG_ID)) None;
   new_inst_x64 X64_INST_MOVX (Some (new_reg_x64ope X64_SUFFIX_QUAD SP_REG_ID)) (Some (new_reg_x64ope X64_SUFFIX_QUAD BP_REG_ID));
   new_inst_x64 X64_INST_MOVX (Some (new_label_x64ope [99; 111; 117; 110; 116])) (Some (new_reg_x64ope X64_SUFFIX_LONG CX_REG_ID));
   new_inst_x64 X64_INST_ADDX (Some (new_signed_int_x64ope X64_SUFFIX_LONG IInt 1)) (Some (new_reg_x64ope X64_SUFFIX_LONG CX_REG_ID));
   new_inst_x64 X64_INST_MOVX (Some (new_reg_x64ope X64_SUFFIX_LONG CX_REG_ID)) (Some (new_label_x64ope [99; 111; 117; 110; 116]));
   new_inst_x64 X64_INST_JMP None (Some (new_jlabel_x64ope [46; 76; 48]));
   new_label_x64 X64_LABEL_NORMAL X64_VIS_NONE [46; 76; 48];
   new_inst_x64 X64_INST_POPX None (Some (new_reg_x64ope X64_SUFFIX_QUAD BP_REG_ID));
   new_inst_x64 X64_INST_RET None None].
Proof. vm_compute. reflexivity. Qed.
(** tests/x64gen/test_x64gen.c test_x64gen_with_evacuation *)
Definition test_x64gen_with_evacuation := x64gen [new_label_immc IMMC_LABEL_VARIABLE IMMC_VIS_GLOBAL [99; 111; 117; 110; 116];
   new_int_data_immc IMMC_DATA_LONG (new_signed IInt 1);
   new_label_immc IMMC_LABEL_VARIABLE IMMC_VIS_GLOBAL [100; 117; 109; 109; 121];
   new_int_data_immc IMMC_DATA_LONG (new_signed IInt 5);
   new_label_immc IMMC_LABEL_FUNCTION IMMC_VIS_GLOBAL [99; 111; 117; 110; 116; 117; 112];
   new_inst_immc IMMC_INST_ENTER None (Some (new_signed_int_immcope IMMC_SUFFIX_QUAD IInt 0)) None;
   new_inst_immc IMMC_INST_LOAD (Some (new_signed_reg_immcope IMMC_SUFFIX_LONG 0)) (Some (new_label_immcope [100; 117; 109; 109; 121])) None;
   new_inst_immc IMMC_INST_LOAD (Some (new_signed_reg_immcope IMMC_SUFFIX_LONG 1)) (Some (new_label_immcope [99; 111; 117; 110; 116])) None;
   new_inst_immc IMMC_INST_PREP None (Some (new_signed_int_immcope IMMC_SUFFIX_NONE IInt 1)) None;
   new_inst_immc IMMC_INST_STARG (Some (new_signed_arg_immcope IMMC_SUFFIX_LONG 0)) (Some (new_signed_reg_immcope IMMC_SUFFIX_LONG 1)) None;
   new_inst_immc IMMC_INST_CALL (Some (new_signed_reg_immcope IMMC_SUFFIX_LONG 1)) (Some (new_label_immcope [99; 111; 117; 110; 116; 117; 112; 95; 105; 110; 110; 101; 114])) (Some (new_signed_int_immcope IMMC_SUFFIX_NONE IInt 1));
   new_inst_immc IMMC_INST_PREP None (Some (new_signed_int_immcope IMMC_SUFFIX_NONE IInt 1)) None;
   new_inst_immc IMMC_INST_STORE (Some (new_label_immcope [99; 111; 117; 110; 116])) (Some (new_signed_reg_immcope IMMC_SUFFIX_LONG 1)) None;
   new_inst_immc IMMC_INST_STRET None (Some (new_signed_reg_immcope IMMC_SUFFIX_LONG 0)) None;
   new_inst_immc IMMC_INST_JMP (Some (new_label_immcope [46; 76; 48])) None None;
   new_label_immc IMMC_LABEL_NORMAL IMMC_VIS_NONE [46; 76; 48];
   new_inst_immc IMMC_INST_LEAVE None (Some (new_signed_int_immcope IMMC_SUFFIX_QUAD IInt 0)) None] [mkls [mklv 6 13] 0 (-1); mkls [mklv 7 9; mklv 10 12] 0 (-1); mkls [] 0 (-1); mkls [] 0 (-1); mkls [] 0 (-1); mkls [] 0 (-1); mkls [] 0 (-1); mkls [] 0 (-1)].
Example test_x64gen_with_evacuation_ok : test_x64gen_with_evacuation = Ok
  [new_label_x64 X64_LABEL_VARIABLE X64_VIS_GLOBAL [99; 111; 117; 110; 116];
   new_int_data_x64 X64_DATA_LONG (new_signed IInt 1);
   new_label_x64 X64_LABEL_VARIABLE X64_VIS_GLOBAL [100; 117; 109; 109; 121];
   new_int_data_x64 X64_DATA_LONG (new_signed IInt 5);
   new_label_x64 X64_LABEL_FUNCTION X64_VIS_GLOBAL [99; 111; 117; 110; 116; 117; 112];
   new_inst_x64 X64_INST_PUSHX (Some (new_reg_x64ope X64_SUFFIX_QUAD BP_REG_ID)) None;
   new_inst_x64 X64_INST_MOVX (Some (new_reg_x64ope X64_SUFFIX_QUAD SP_REG_ID)) (Some (new_reg_x64ope X64_SUFFIX_QUAD BP_REG_ID));
   new_inst_x64 X64_INST_PUSHX (Some (new_reg_x64ope X64_SUFFIX_QUAD BX_REG_ID)) None;
   new_inst_x64 X64_INST_SUBX (Some (new_signed_int_x64ope X64_SUFFIX_QUAD IInt 8)) (Some (new_reg_x64ope X64_SUFFIX_QUAD SP_REG_ID));
   new_inst_x64 X64_INST_MOVX (Some (new_label_x64ope [100; 117; 109; 109; 121])) (Some (new_reg_x64ope X64_SUFFIX_LONG CX_REG_ID));
   new_inst_x64 X64_INST_MOVX (Some (new_label_x64ope [99; 111; 117; 110; 116])) (Some (new_reg_x64ope X64_SUFFIX_LONG DX_REG_ID));
   new_inst_x64 X64_INST_PUSHX (Some (new_reg_x64ope X64_SUFFIX_QUAD DX_REG_ID)) None;
   new_inst_x64 X64_INST_MOVX (Some (new_reg_x64ope X64_SUFFIX_QUAD CX_REG_ID)) (Some (new_reg_x64ope X64_SUFFIX_QUAD BX_REG_ID));
   new_inst_x64 X64_INST_POPX None (Some (new_reg_x64ope X64_SUFFIX_QUAD DI_REG_ID));
   new_inst_x64 X64_INST_MOVX (Some (new_signed_int_x64ope X64_SUFFIX_QUAD IInt 0)) (Some (new_reg_x64ope X64_SUFFIX_QUAD AX_REG_ID));
   new_inst_x64 X64_INST_CALL (Some (new_jlabel_x64ope [99; 111; 117; 110; 116; 117; 112; 95; 105; 110; 110; 101; 114])) None;
   new_inst_x64 X64_INST_MOVX (Some (new_reg_x64ope X64_SUFFIX_QUAD BX_REG_ID)) (Some (new_reg_x64ope X64_SUFFIX_QUAD CX_REG_ID));
   new_inst_x64 X64_INST_MOVX (Some (new_reg_x64ope X64_SUFFIX_LONG AX_REG_ID)) (Some (new_reg_x64ope X64_SUFFIX_LONG DX_REG_ID));
   new_inst_x64 X64_INST_MOVX (Some (new_reg_x64ope X64_SUFFIX_LONG DX_REG_ID)) (Some (new_label_x64ope [99; 111; 117; 110; 116]));
   new_inst_x64 X64_INST_MOVX (Some (new_reg_x64ope X64_SUFFIX_LONG CX_REG_ID)) (Some (new_reg_x64ope X64_SUFFIX_LONG AX_REG_ID));
   new_inst_x64 X64_INST_JMP None (Some (new_jlabel_x64ope [46; 76; 48]));
   new_label_x64 X64_LABEL_NORMAL X64_VIS_NONE [46; 76; 48];
   new_inst_x64 X64_INST_ADDX (Some (new_signed_int_x64ope X64_SUFFIX_QUAD IInt 8)) (Some (new_reg_x64ope X64_SUFFIX_QUAD SP_REG_ID));
   new_inst_x64 X64_INST_POPX None (Some (new_reg_x64ope X64_SUFFIX_QUAD BX_REG_ID));
   new_inst_x64 X64_INST_POPX None (Some (new_reg_x64ope X64_SUFFIX_QUAD BP_REG_ID));
   new_inst_x64 X64_INST_RET None None].
Proof. vm_compute. reflexivity. Qed.
