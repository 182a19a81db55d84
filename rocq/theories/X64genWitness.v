(** Instructions for which the generated code is wrong. *)
From Coq Require Import Lia FMapPositive.
From Verif Require Import Base X64genModel X64Decode X64Isa OpSpec.
Open Scope Z_scope.

Definition w_regs : regfile := mkregs 100 101 7 9 104 105 106 107 108 109 55 111 112 113 114 115.
Definition w_state : state := mkstate w_regs None (mkmem (PositiveMap.empty Z) [(0, 1000)] 0).
Definition w_env : env := fun _ => None.
(** a signed or unsigned register operand *)
Definition sreg (s : suffix) (k : Z) : ope := IMMC_OPERAND_REG s (mkireg k false).
Definition ureg (s : suffix) (k : Z) : ope := IMMC_OPERAND_REG s (mkireg k true).
Definition slit (v : Z) : ope := IMMC_OPERAND_INT IMMC_SUFFIX_LONG (new_signed IInt v).
(** nothing live, and register 6 live *)
Definition w_dead : xst := mkxst (repeat new_liveseq 8) 0.
Definition w_live : xst :=
  mkxst (repeat new_liveseq 6 ++ [mkls [mklv 0 10] 3 0; new_liveseq]) 0.

(** dividing by a literal loses register 6 *)
Lemma literal_divisor_witness :
  exists d f g st cs st' m m', gen_inst_x64code (IMMC_INST IMMC_INST_DIV (Some d) (Some f) (Some g)) st = Ok (cs, st')
    /\ sources f g S4 /\ destination d S4 /\ live_after st 6 /\ ~ In R10 (regs_of [d; f; g])
    /\ runs w_env cs m (Next m') /\ low S4 (rget (regs m') R10) <> low S4 (rget (regs m) R10).
Proof.
  exists (sreg IMMC_SUFFIX_LONG 0), (sreg IMMC_SUFFIX_LONG 0), (slit 3), w_live.
  eexists _, _, w_state, _. split; [vm_compute; reflexivity |].
  split. { repeat split; try (intros (? & _); discriminate); discriminate. }
  split. { repeat split. intros (? & _); discriminate. }
  split. { eexists. split; [vm_compute; reflexivity | vm_compute; reflexivity]. }
  split. { vm_compute. intuition discriminate. }
  split. { eexists. split; [vm_compute; reflexivity | vm_compute; reflexivity]. }
  vm_compute. discriminate.
Qed.

(** a product of unsigned 4-byte registers, wanted in 8 bytes: the move of the result does not assemble *)
Lemma unsigned_widening_witness :
  exists d f g st cs st', gen_inst_x64code (IMMC_INST IMMC_INST_MUL (Some d) (Some f) (Some g)) st = Ok (cs, st')
    /\ sources f g S4 /\ is_register d /\ operand_size d = Some S8 /\ insns cs = None.
Proof.
  exists (ureg IMMC_SUFFIX_QUAD 0), (ureg IMMC_SUFFIX_LONG 0), (ureg IMMC_SUFFIX_LONG 1), w_dead.
  eexists _, _. split; [vm_compute; reflexivity |].
  split. { repeat split; try (intros (? & ? & ?); discriminate); discriminate. }
  repeat split.
Qed.
(** the first source of a product is lost when the second is a narrower signed register *)
Lemma product_width_witness :
  exists d f g st cs st' m m' vf vg, gen_inst_x64code (IMMC_INST IMMC_INST_MUL (Some d) (Some f) (Some g)) st = Ok (cs, st')
    /\ sources f g S8 /\ destination d S8 /\ value m f = Some vf /\ value m g = Some vg
    /\ runs w_env cs m (Next m') /\ value m' d <> result_in d S8 (vf * vg).
Proof.
  exists (sreg IMMC_SUFFIX_QUAD 0), (sreg IMMC_SUFFIX_QUAD 0), (sreg IMMC_SUFFIX_LONG 1), w_dead.
  eexists _, _, w_state, _, _, _. split; [vm_compute; reflexivity |].
  split. { repeat split; try (intros (? & ? & ?); discriminate); discriminate. }
  split. { repeat split. intros (? & _); discriminate. }
  split; [vm_compute; reflexivity |]. split; [vm_compute; reflexivity |].
  split. { eexists. split; [vm_compute; reflexivity | vm_compute; reflexivity]. }
  vm_compute. discriminate.
Qed.
(** dividing a register by itself when that register is DX *)
Lemma divide_dx_witness :
  exists d f g st cs st' m, gen_inst_x64code (IMMC_INST IMMC_INST_DIV (Some d) (Some f) (Some g)) st = Ok (cs, st')
    /\ sources f g S4 /\ destination d S4 /\ value m f = Some 9 /\ value m g = Some 9 /\ runs w_env cs m Fault.
Proof.
  exists (sreg IMMC_SUFFIX_LONG 0), (sreg IMMC_SUFFIX_LONG 1), (sreg IMMC_SUFFIX_LONG 1), w_dead.
  eexists _, _, w_state. split; [vm_compute; reflexivity |].
  split. { repeat split; try (intros (? & _); discriminate); discriminate. }
  split. { repeat split. intros (? & _); discriminate. }
  split; [vm_compute; reflexivity |]. split; [vm_compute; reflexivity |].
  eexists. split; [vm_compute; reflexivity | vm_compute; reflexivity].
Qed.
(** a comparison whose destination is not the register of its first source *)
Lemma comparison_witness :
  exists d f g st cs st' m m' vf vg, gen_inst_x64code (IMMC_INST IMMC_INST_SETEQ (Some d) (Some f) (Some g)) st = Ok (cs, st')
    /\ sources f g S4 /\ is_register d /\ operand_size d = Some S4 /\ value m f = Some vf /\ value m g = Some vg
    /\ runs w_env cs m (Next m') /\ value m' d <> Some (if vf =? vg then 1 else 0).
Proof.
  exists (sreg IMMC_SUFFIX_LONG 1), (sreg IMMC_SUFFIX_LONG 0), (slit 3), w_dead.
  eexists _, _, w_state, _, _, _. split; [vm_compute; reflexivity |].
  split. { repeat split; try (intros (? & _); discriminate); discriminate. }
  split; [exact I |]. split; [reflexivity |].
  split; [vm_compute; reflexivity |]. split; [vm_compute; reflexivity |].
  split. { eexists. split; [vm_compute; reflexivity | vm_compute; reflexivity]. }
  vm_compute. discriminate.
Qed.
(** right shift of an unsigned operand with its top bit set *)
Lemma unsigned_shift_witness :
  exists d f g st cs st' m m' vf, gen_inst_x64code (IMMC_INST IMMC_INST_SAR (Some d) (Some f) (Some g)) st = Ok (cs, st')
    /\ sources f g S4 /\ destination d S4 /\ operand_unsigned f = true /\ value m f = Some vf /\ value m g = Some 31
    /\ runs w_env cs m (Next m') /\ value m' d <> result_in d S4 (vf / 2 ^ 31).
Proof.
  exists (ureg IMMC_SUFFIX_LONG 0), (ureg IMMC_SUFFIX_LONG 0), (slit 31), w_dead.
  eexists _, _, (mkstate (rset w_regs RCX 4294967295) None (mem w_state)), _, _. split; [vm_compute; reflexivity |].
  split. { repeat split; try (intros (? & ? & ?); discriminate); discriminate. }
  split. { repeat split. intros (? & ? & ?); discriminate. }
  split; [reflexivity |]. split; [vm_compute; reflexivity |]. split; [vm_compute; reflexivity |].
  split. { eexists. split; [vm_compute; reflexivity | vm_compute; reflexivity]. }
  vm_compute. discriminate.
Qed.
(** no code for a shift by a register *)
Lemma variable_shift_witness : forall t d f s r st x, In t [IMMC_INST_SAL; IMMC_INST_SAR] -> ope_real f = Ok x ->
  gen_inst_x64code (IMMC_INST t (Some d) (Some f) (Some (IMMC_OPERAND_REG s r))) st = Fatal.
Proof.
  intros t d f s r st x [<- | [<- | []]] Hf; cbn [gen_inst_x64code gen_shrot deref bind]; rewrite Hf; reflexivity.
Qed.
(** converting an unsigned 4-byte value to 8 bytes: nothing is generated in place ... *)
Lemma widen_in_place_witness :
  exists d f st cs st' m m', gen_inst_x64code (IMMC_INST IMMC_INST_LOAD (Some d) (Some f) None) st = Ok (cs, st')
    /\ is_register d /\ is_register f /\ value m f = Some 5 /\ runs w_env cs m (Next m') /\ value m' d <> Some 5.
Proof.
  exists (ureg IMMC_SUFFIX_QUAD 0), (ureg IMMC_SUFFIX_LONG 0), w_dead.
  eexists _, _, (mkstate (rset w_regs RCX 4294967301) None (mem w_state)), _. split; [vm_compute; reflexivity |].
  split; [exact I |]. split; [exact I |]. split; [vm_compute; reflexivity |].
  split. { eexists. split; [vm_compute; reflexivity | vm_compute; reflexivity]. }
  vm_compute. discriminate.
Qed.
(** ... and what is generated otherwise does not assemble *)
Lemma widen_move_witness :
  exists d f st cs st', gen_inst_x64code (IMMC_INST IMMC_INST_LOAD (Some d) (Some f) None) st = Ok (cs, st')
    /\ is_register d /\ is_register f /\ insns cs = None.
Proof.
  exists (ureg IMMC_SUFFIX_QUAD 0), (ureg IMMC_SUFFIX_LONG 1), w_dead.
  eexists _, _. split; [vm_compute; reflexivity |]. repeat split.
Qed.
(** a large literal stored in memory *)
Lemma store_literal_witness :
  exists v st cs st', gen_inst_x64code (IMMC_INST IMMC_INST_STORE (Some (IMMC_OPERAND_MEM 8))
      (Some (IMMC_OPERAND_INT IMMC_SUFFIX_QUAD (new_unsigned IULongLong v))) None) st = Ok (cs, st')
    /\ 0 <= v < 2 ^ 64 /\ insns cs = None.
Proof.
  exists 4294967301, w_dead. eexists _, _. split; [vm_compute; reflexivity |]. split; [lia | reflexivity].
Qed.
(** comparing an unsigned 4-byte register with an 8-byte one *)
Lemma jump_width_witness :
  exists l f g st cs st' m m', gen_inst_x64code (IMMC_INST IMMC_INST_JEQ (Some (IMMC_OPERAND_LABEL l)) (Some f) (Some g)) st = Ok (cs, st')
    /\ is_register f /\ is_register g /\ value m f = Some 9 /\ value m g = Some 9 /\ runs w_env cs m (Next m').
Proof.
  exists (bytes ".L1"), (ureg IMMC_SUFFIX_LONG 0), (ureg IMMC_SUFFIX_QUAD 1), w_dead.
  eexists _, _, (mkstate (rset w_regs RCX 4294967305) None (mem w_state)), _. split; [vm_compute; reflexivity |].
  split; [exact I |]. split; [exact I |]. split; [vm_compute; reflexivity |]. split; [vm_compute; reflexivity |].
  eexists. split; [vm_compute; reflexivity | vm_compute; reflexivity].
Qed.

(** characters outside of ASCII are negative, and their sign ends up in the characters after them *)
Lemma string_sign_witness : exists s st cs st' m',
  gen_inst_x64code (IMMC_INST IMMC_INST_STR (Some (IMMC_OPERAND_MEM 16)) (Some (IMMC_OPERAND_STR s)) None) st = Ok (cs, st')
  /\ nth_error s 1 = Some 98 /\ location w_env w_state (IMMC_OPERAND_MEM 16) = Some 89 /\ runs w_env cs w_state (Next m') /\ peek (mem m') (89 + 1) <> 98.
Proof.
  exists [-128; 98; 99; 100; 101; 102; 103; 104], w_dead. do 3 eexists. split; [vm_compute; reflexivity |]. split; [reflexivity |]. split; [reflexivity |].
  split; [eexists; split; [vm_compute; reflexivity | vm_compute; reflexivity] |]. vm_compute. discriminate.
Qed.
