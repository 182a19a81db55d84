(** C39-C43: the machine code of single instructions.
    [runs e cs m o]: the assembly [cs] assembles and, run from machine state [m] (registers, flags and
    memory) has outcome [o].  OpSpec says what the operations mean and what the hypotheses below are. *)
From Coq Require Import Lia.
From Verif Require Import Base X64genModel X64Decode X64Isa OpSpec X64genProofs2 X64genProofs3 X64genProofs4 X64genProofs5 X64genProofs6 X64genWitness.
Local Open Scope Z_scope.

(** C39: addition, subtraction, multiplication and the bitwise operations, in all sizes (not bytes for multiplication), on registers and literals; the operands can share registers.  Only the accumulator and the registers of the operands change.  Not covered: see [widens], [accumulator_free] and the refutations. *)
Theorem C39_binary_partial : forall t d f g st cs st' e m s vf vg r,
  In t [IMMC_INST_ADD; IMMC_INST_SUB; IMMC_INST_MUL; IMMC_INST_AND; IMMC_INST_OR; IMMC_INST_XOR] ->
  gen_inst_x64code (IMMC_INST t (Some d) (Some f) (Some g)) st = Ok (cs, st') ->
  sources f g s -> destination d s -> (t = IMMC_INST_MUL -> s <> S1 /\ accumulator_free f g) ->
  value m f = Some vf -> value m g = Some vg ->
  binop t (operand_unsigned d) s vf vg = Some r ->
  exists m', runs e cs m (Next m') /\ value m' d = result_in d s r
    /\ changes_only (RAX :: regs_of [d; f; g]) m m'
    /\ (~ In (operand_reg g) [None; operand_reg d; operand_reg f] -> value m' g = value m g).
Proof. exact binary_correct. Qed.
Print Assumptions C39_binary_partial.
Example C39_binary_case : exists cs st', gen_inst_x64code (IMMC_INST IMMC_INST_SUB (Some (sreg IMMC_SUFFIX_QUAD 0)) (Some (sreg IMMC_SUFFIX_LONG 0)) (Some (sreg IMMC_SUFFIX_QUAD 1))) w_dead = Ok (cs, st')
  /\ sources (sreg IMMC_SUFFIX_LONG 0) (sreg IMMC_SUFFIX_QUAD 1) S8 /\ destination (sreg IMMC_SUFFIX_QUAD 0) S8
  /\ value w_state (sreg IMMC_SUFFIX_LONG 0) = Some 7 /\ value w_state (sreg IMMC_SUFFIX_QUAD 1) = Some 9
  /\ binop IMMC_INST_SUB false S8 7 9 = Some (-2).
Proof.
  eexists _, _. split; [vm_compute; reflexivity |]. repeat split; try (intros (? & _); discriminate); try (intros (? & ? & ?); discriminate); try discriminate.
Qed.

(** Division and remainder; RDX keeps its value when it is live, and if RBX changes the function is told to save it.  A literal divisor overwrites R10. *)
Theorem C39_division_partial : forall t d f g st cs st' e m s vf vg r,
  In t [IMMC_INST_DIV; IMMC_INST_MOD] ->
  gen_inst_x64code (IMMC_INST t (Some d) (Some f) (Some g)) st = Ok (cs, st') ->
  sources f g s -> destination d s -> s <> S1 -> accumulator_free f g -> loadable g s ->
  ~ (is_dx f /\ is_dx g) ->
  value m f = Some vf -> value m g = Some vg ->
  binop t (operand_unsigned d) s vf vg = Some r ->
  exists m', runs e cs m (Next m') /\ value m' d = result_in d s r
    /\ changes_only (RAX :: RDX :: RBX :: (if operand_reg g then [] else [R10]) ++ regs_of [d; f; g]) m m'
    /\ (~ In (operand_reg g) [None; Some RDX; operand_reg d; operand_reg f] -> value m' g = value m g)
    /\ (live_after st 1 -> ~ is_dx d -> ~ is_dx f -> get (regs m') S8 RDX = get (regs m) S8 RDX)
    /\ (rget (regs m') RBX = rget (regs m) RBX \/ 1 <= x_evac st').
Proof. exact division_correct. Qed.
Print Assumptions C39_division_partial.
Example C39_division_case : exists cs st', gen_inst_x64code (IMMC_INST IMMC_INST_MOD (Some (sreg IMMC_SUFFIX_LONG 0)) (Some (sreg IMMC_SUFFIX_LONG 0)) (Some (sreg IMMC_SUFFIX_LONG 1))) w_dead = Ok (cs, st')
  /\ sources (sreg IMMC_SUFFIX_LONG 0) (sreg IMMC_SUFFIX_LONG 1) S4 /\ destination (sreg IMMC_SUFFIX_LONG 0) S4
  /\ accumulator_free (sreg IMMC_SUFFIX_LONG 0) (sreg IMMC_SUFFIX_LONG 1)
  /\ binop IMMC_INST_MOD false S4 7 9 = Some 7.
Proof.
  eexists _, _. split; [vm_compute; reflexivity |]. repeat split; try (intros (? & _); discriminate); try (intros (? & ? & ?); discriminate); try discriminate.
Qed.

(** Negation and complement. *)
Theorem C39_unary_partial : forall t d f st cs st' e m s v r,
  In t [IMMC_INST_NEG; IMMC_INST_NOT] ->
  gen_inst_x64code (IMMC_INST t (Some d) (Some f) None) st = Ok (cs, st') ->
  is_register d -> is_register_or_literal f -> operand_size f = Some s -> loadable f s ->
  (exists z, operand_size d = Some z /\ widens (operand_unsigned f) s z) ->
  value m f = Some v -> unop_spec t v = Some r ->
  exists m', runs e cs m (Next m')
    /\ value m' d = match operand_size d with
                    | Some z => Some (interp (operand_unsigned d) z (interp (operand_unsigned f) s r)) | None => None end
    /\ changes_only (RAX :: regs_of [d; f]) m m'.
Proof. exact unary_correct. Qed.
Print Assumptions C39_unary_partial.
Example C39_unary_case : exists cs st', gen_inst_x64code (IMMC_INST IMMC_INST_NEG (Some (sreg IMMC_SUFFIX_LONG 0)) (Some (sreg IMMC_SUFFIX_LONG 1)) None) w_dead = Ok (cs, st')
  /\ loadable (sreg IMMC_SUFFIX_LONG 1) S4 /\ widens false S4 S4 /\ unop_spec IMMC_INST_NEG 9 = Some (-9).
Proof. eexists _, _. split; [vm_compute; reflexivity |]. repeat split. intros (? & _); discriminate. Qed.

(** The full property is false.  A literal divisor overwrites a live R10 that is not an operand: *)
Theorem C39_literal_divisor_refuted :   exists d f g st cs st' m m', gen_inst_x64code (IMMC_INST IMMC_INST_DIV (Some d) (Some f) (Some g)) st = Ok (cs, st')
    /\ sources f g S4 /\ destination d S4 /\ live_after st 6 /\ ~ In R10 (regs_of [d; f; g])
    /\ runs w_env cs m (Next m') /\ low S4 (rget (regs m') R10) <> low S4 (rget (regs m) R10).
Proof. exact literal_divisor_witness. Qed.
Print Assumptions C39_literal_divisor_refuted.

(** an unsigned 4-byte product wanted in 8 bytes does not assemble: *)
Theorem C39_unsigned_widening_refuted :   exists d f g st cs st', gen_inst_x64code (IMMC_INST IMMC_INST_MUL (Some d) (Some f) (Some g)) st = Ok (cs, st')
    /\ sources f g S4 /\ is_register d /\ operand_size d = Some S8 /\ insns cs = None.
Proof. exact unsigned_widening_witness. Qed.
Print Assumptions C39_unsigned_widening_refuted.

(** an 8-byte signed register times a 4-byte one: *)
Theorem C39_product_width_refuted :   exists d f g st cs st' m m' vf vg, gen_inst_x64code (IMMC_INST IMMC_INST_MUL (Some d) (Some f) (Some g)) st = Ok (cs, st')
    /\ sources f g S8 /\ destination d S8 /\ value m f = Some vf /\ value m g = Some vg
    /\ runs w_env cs m (Next m') /\ value m' d <> result_in d S8 (vf * vg).
Proof. exact product_width_witness. Qed.
Print Assumptions C39_product_width_refuted.

(** 9 / 9 faults when both are in RDX: *)
Theorem C39_divide_dx_refuted :   exists d f g st cs st' m, gen_inst_x64code (IMMC_INST IMMC_INST_DIV (Some d) (Some f) (Some g)) st = Ok (cs, st')
    /\ sources f g S4 /\ destination d S4 /\ value m f = Some 9 /\ value m g = Some 9 /\ runs w_env cs m Fault.
Proof. exact divide_dx_witness. Qed.
Print Assumptions C39_divide_dx_refuted.

(** C40: comparisons whose destination is the register of the first source (any size). *)
Theorem C40_compare_partial : forall t d f g st cs st' e m s vf vg,
  is_setcmp t ->
  gen_inst_x64code (IMMC_INST t (Some d) (Some f) (Some g)) st = Ok (cs, st') ->
  sources f g s -> is_register d -> operand_size d <> None -> operand_reg d = operand_reg f ->
  value m f = Some vf -> value m g = Some vg ->
  exists m' b, runs e cs m (Next m') /\ compare t (operand_unsigned f) s vf vg = Some b
    /\ value m' d = result_in d S1 (if b then 1 else 0)
    /\ changes_only (RAX :: regs_of [d; f; g]) m m'
    /\ (~ In (operand_reg g) [None; operand_reg d] -> value m' g = value m g).
Proof. exact setcmp_correct. Qed.
Print Assumptions C40_compare_partial.
Example C40_case : exists cs st', gen_inst_x64code (IMMC_INST IMMC_INST_SETLT (Some (sreg IMMC_SUFFIX_LONG 0)) (Some (ureg IMMC_SUFFIX_LONG 0)) (Some (ureg IMMC_SUFFIX_LONG 1))) w_dead = Ok (cs, st')
  /\ sources (ureg IMMC_SUFFIX_LONG 0) (ureg IMMC_SUFFIX_LONG 1) S4 /\ compare IMMC_INST_SETLT true S4 7 9 = Some true.
Proof.
  eexists _, _. split; [vm_compute; reflexivity |]. repeat split; try (intros (? & _); discriminate); try (intros (? & ? & ?); discriminate); try discriminate.
Qed.

(** Another destination gets the low byte of the first source instead of the truth value: *)
Theorem C40_destination_refuted :   exists d f g st cs st' m m' vf vg, gen_inst_x64code (IMMC_INST IMMC_INST_SETEQ (Some d) (Some f) (Some g)) st = Ok (cs, st')
    /\ sources f g S4 /\ is_register d /\ operand_size d = Some S4 /\ value m f = Some vf /\ value m g = Some vg
    /\ runs w_env cs m (Next m') /\ value m' d <> Some (if vf =? vg then 1 else 0).
Proof. exact comparison_witness. Qed.
Print Assumptions C40_destination_refuted.

(** C41: the branch is taken exactly when the comparison holds; the operands keep their values.  Missing: unsigned 4-byte against 8-byte operands. *)
Theorem C41_jump_partial : forall t l f g st cs st' e m s vf vg,
  is_jcmp t ->
  gen_inst_x64code (IMMC_INST t (Some (IMMC_OPERAND_LABEL l)) (Some f) (Some g)) st = Ok (cs, st') ->
  sources f g s -> value m f = Some vf -> value m g = Some vg ->
  exists m' b, compare t (operand_unsigned f) s vf vg = Some b
    /\ runs e cs m (if b then Goto l m' else Next m')
    /\ changes_only (RAX :: regs_of [f; g]) m m' /\ value m' f = value m f
    /\ (operand_reg g <> None -> value m' g = value m g).
Proof. exact jcmp_correct. Qed.
Print Assumptions C41_jump_partial.
Example C41_case : exists cs st', gen_inst_x64code (IMMC_INST IMMC_INST_JGEQ (Some (IMMC_OPERAND_LABEL (bytes ".L1"))) (Some (sreg IMMC_SUFFIX_LONG 0)) (Some (slit 12))) w_dead = Ok (cs, st')
  /\ sources (sreg IMMC_SUFFIX_LONG 0) (slit 12) S4 /\ compare IMMC_INST_JGEQ false S4 7 12 = Some false.
Proof.
  eexists _, _. split; [vm_compute; reflexivity |]. repeat split; try (intros (? & _); discriminate); try (intros (? & ? & ?); discriminate); try discriminate.
Qed.

(** The unconditional jump. *)
Theorem C41_goto : forall l st cs st' e m,
  gen_inst_x64code (IMMC_INST IMMC_INST_JMP (Some (IMMC_OPERAND_LABEL l)) None None) st = Ok (cs, st') ->
  runs e cs m (Goto l m).
Proof. exact jmp_correct. Qed.
Print Assumptions C41_goto.

(** Comparing an unsigned 4-byte register with an 8-byte one does not look at the 4-byte value: *)
Theorem C41_unsigned_refuted :   exists l f g st cs st' m m', gen_inst_x64code (IMMC_INST IMMC_INST_JEQ (Some (IMMC_OPERAND_LABEL l)) (Some f) (Some g)) st = Ok (cs, st')
    /\ is_register f /\ is_register g /\ value m f = Some 9 /\ value m g = Some 9 /\ runs w_env cs m (Next m').
Proof. exact jump_width_witness. Qed.
Print Assumptions C41_unsigned_refuted.

(** C42: shifts by literal counts; right shifts of unsigned operands only when the top bit is clear. *)
Theorem C42_shift_partial : forall t d f g st cs st' e m s vf vg r,
  In t [IMMC_INST_SAL; IMMC_INST_SAR] ->
  gen_inst_x64code (IMMC_INST t (Some d) (Some f) (Some g)) st = Ok (cs, st') ->
  sources f g s -> destination d s ->
  value m f = Some vf -> value m g = Some vg ->
  (t = IMMC_INST_SAR -> operand_unsigned f = true -> vf < 2 ^ (nbits s - 1)) ->
  binop t (operand_unsigned f) s vf vg = Some r ->
  exists m', runs e cs m (Next m') /\ value m' d = result_in d s r /\ changes_only (RAX :: regs_of [d; f]) m m'.
Proof. exact shift_correct. Qed.
Print Assumptions C42_shift_partial.
Example C42_case : exists cs st', gen_inst_x64code (IMMC_INST IMMC_INST_SAR (Some (sreg IMMC_SUFFIX_LONG 0)) (Some (sreg IMMC_SUFFIX_LONG 0)) (Some (slit 3))) w_dead = Ok (cs, st')
  /\ sources (sreg IMMC_SUFFIX_LONG 0) (slit 3) S4 /\ destination (sreg IMMC_SUFFIX_LONG 0) S4
  /\ binop IMMC_INST_SAR false S4 (-20) 3 = Some (-3).
Proof.
  eexists _, _. split; [vm_compute; reflexivity |]. repeat split; try (intros (? & _); discriminate); try (intros (? & ? & ?); discriminate); try discriminate.
Qed.

(** Unsigned right shifts copy the top bit, and variable counts stop the compiler: *)
Theorem C42_unsigned_refuted :   exists d f g st cs st' m m' vf, gen_inst_x64code (IMMC_INST IMMC_INST_SAR (Some d) (Some f) (Some g)) st = Ok (cs, st')
    /\ sources f g S4 /\ destination d S4 /\ operand_unsigned f = true /\ value m f = Some vf /\ value m g = Some 31
    /\ runs w_env cs m (Next m') /\ value m' d <> result_in d S4 (vf / 2 ^ 31).
Proof. exact unsigned_shift_witness. Qed.
Print Assumptions C42_unsigned_refuted.

Theorem C42_variable_count_refuted :  forall t d f s r st x, In t [IMMC_INST_SAL; IMMC_INST_SAR] -> ope_real f = Ok x ->
  gen_inst_x64code (IMMC_INST t (Some d) (Some f) (Some (IMMC_OPERAND_REG s r))) st = Fatal.
Proof. exact variable_shift_witness. Qed.
Print Assumptions C42_variable_count_refuted.

(** C43: conversion of a register or literal to the size and signedness of another register.  Missing: unsigned 4 to 8 bytes. *)
Theorem C43_convert_partial : forall d f st cs st' e m zd v,
  gen_inst_x64code (IMMC_INST IMMC_INST_LOAD (Some d) (Some f) None) st = Ok (cs, st') ->
  is_register d -> operand_size d = Some zd ->
  is_register_or_literal f -> operand_size f <> None -> widens_operand f zd -> loadable f zd ->
  value m f = Some v ->
  exists m', runs e cs m (Next m') /\ value m' d = Some (interp (operand_unsigned d) zd v)
    /\ changes_only (RAX :: regs_of [d]) m m'.
Proof. exact load_value_correct. Qed.
Print Assumptions C43_convert_partial.
Example C43_convert_case : exists cs st', gen_inst_x64code (IMMC_INST IMMC_INST_LOAD (Some (sreg IMMC_SUFFIX_QUAD 0)) (Some (sreg IMMC_SUFFIX_BYTE 1)) None) w_dead = Ok (cs, st')
  /\ widens_operand (sreg IMMC_SUFFIX_BYTE 1) S8 /\ value w_state (sreg IMMC_SUFFIX_BYTE 1) = Some 9.
Proof. eexists _, _. split; [vm_compute; reflexivity |]. repeat split. intros (? & _); discriminate. Qed.

(** Loads from a pointer, the frame or a global. *)
Theorem C43_load : forall d f st cs st' e m zd a w,
  gen_inst_x64code (IMMC_INST IMMC_INST_LOAD (Some d) (Some f) None) st = Ok (cs, st') ->
  is_register d -> operand_size d = Some zd -> location e m f = Some a ->
  byte_memory (X64Isa.mem m) -> accessible (X64Isa.mem m) a (size_bytes zd) -> holds (X64Isa.mem m) a (size_bytes zd) w ->
  exists m', runs e cs m (Next m') /\ value m' d = Some (interp (operand_unsigned d) zd w)
    /\ changes_only (regs_of [d]) m m'.
Proof. exact load_memory_correct. Qed.
Print Assumptions C43_load.

(** Stores change the bytes of the location and nothing else. *)
Theorem C43_store : forall d f st cs st' e m z a v,
  gen_inst_x64code (IMMC_INST IMMC_INST_STORE (Some d) (Some f) None) st = Ok (cs, st') ->
  is_register_or_literal f -> operand_size f = Some z -> encodable z f ->
  location e m d = Some a -> accessible (X64Isa.mem m) a (size_bytes z) ->
  value m f = Some v ->
  exists m', runs e cs m (Next m') /\ regs m' = regs m /\ written (X64Isa.mem m) a (size_bytes z) v (X64Isa.mem m').
Proof. exact store_correct. Qed.
Print Assumptions C43_store.

(** A store and a load of the same place. *)
Theorem C43_store_load : forall d f l st cs st1 cs2 st2 e m z a v,
  gen_inst_x64code (IMMC_INST IMMC_INST_STORE (Some l) (Some f) None) st = Ok (cs, st1) ->
  gen_inst_x64code (IMMC_INST IMMC_INST_LOAD (Some d) (Some l) None) st1 = Ok (cs2, st2) ->
  is_register_or_literal f -> operand_size f = Some z -> encodable z f ->
  is_register d -> operand_size d = Some z ->
  location e m l = Some a -> accessible (X64Isa.mem m) a (size_bytes z) -> byte_memory (X64Isa.mem m) ->
  value m f = Some v ->
  exists m', runs e (cs ++ cs2) m (Next m') /\ value m' d = Some (interp (operand_unsigned d) z v)
    /\ (forall q, ~ In q (regs_of [d]) -> rget (regs m') q = rget (regs m) q)
    /\ written (X64Isa.mem m) a (size_bytes z) v (X64Isa.mem m').
Proof. exact store_load_correct. Qed.
Print Assumptions C43_store_load.
Example C43_store_load_case : exists cs st1 cs2 st2, gen_inst_x64code (IMMC_INST IMMC_INST_STORE (Some (IMMC_OPERAND_MEM 8)) (Some (slit 300)) None) w_dead = Ok (cs, st1)
  /\ gen_inst_x64code (IMMC_INST IMMC_INST_LOAD (Some (sreg IMMC_SUFFIX_LONG 0)) (Some (IMMC_OPERAND_MEM 8)) None) st1 = Ok (cs2, st2)
  /\ location w_env w_state (IMMC_OPERAND_MEM 8) = Some 97
  /\ accessible (X64Isa.mem w_state) 97 4.
Proof.
  eexists _, _, _, _. split; [vm_compute; reflexivity |]. split; [vm_compute; reflexivity |]. split; [reflexivity |].
  split; [lia |]. exists (0, 1000). split; [left; reflexivity | cbn; lia].
Qed.

(** Taking an address. *)
Theorem C43_address : forall d f st cs st' e m a,
  gen_inst_x64code (IMMC_INST IMMC_INST_ADDR (Some d) (Some f) None) st = Ok (cs, st') ->
  is_register d -> operand_size d = Some S8 -> location e m f = Some a ->
  exists m', runs e cs m (Next m') /\ value m' d = Some (interp (operand_unsigned d) S8 a)
    /\ changes_only (regs_of [d]) m m'.
Proof. exact addr_correct. Qed.
Print Assumptions C43_address.

(** The characters of a string in a local array. The bytes from [a + length s] to [a + n], where the length is rounded up
    to a multiple of four, may change; they are in the slot of the array, too (C22). Missing: characters above 127, which are negative. *)
Theorem C43_string_partial : forall off s st cs st' e m a n,
  gen_inst_x64code (IMMC_INST IMMC_INST_STR (Some (IMMC_OPERAND_MEM off)) (Some (IMMC_OPERAND_STR s)) None) st = Ok (cs, st') ->
  Forall (fun c => 0 <= c < 256) s -> n mod 4 = 0 -> Z.of_nat (length s) <= n ->
  location e m (IMMC_OPERAND_MEM off) = Some a -> a + n < 2 ^ 64 -> accessible (X64Isa.mem m) a n ->
  exists m', runs e cs m (Next m') /\ regions (X64Isa.mem m') = regions (X64Isa.mem m)
    /\ (forall i c, nth_error s i = Some c -> peek (X64Isa.mem m') (a + Z.of_nat i) = c)
    /\ (forall b, 0 <= b -> b < a \/ a + n <= b -> peek (X64Isa.mem m') b = peek (X64Isa.mem m) b)
    /\ (forall q, q <> R10 -> rget (regs m') q = rget (regs m) q).
Proof. exact string_correct. Qed.
Print Assumptions C43_string_partial.
Example C43_string_case : exists cs st', gen_inst_x64code (IMMC_INST IMMC_INST_STR (Some (IMMC_OPERAND_MEM 16)) (Some (IMMC_OPERAND_STR (bytes "fifteen bytes.." ++ [0]))) None) w_dead = Ok (cs, st')
  /\ Forall (fun c => 0 <= c < 256) (bytes "fifteen bytes.." ++ [0]) /\ location w_env w_state (IMMC_OPERAND_MEM 16) = Some 89 /\ accessible (X64Isa.mem w_state) 89 16.
Proof.
  eexists _, _. split; [vm_compute; reflexivity |]. split; [repeat constructor; intros Q; discriminate Q |]. split; [reflexivity |].
  split; [lia |]. exists (0, 1000). split; [left; reflexivity | cbn; lia].
Qed.
Theorem C43_string_sign_refuted : exists s st cs st' m',
  gen_inst_x64code (IMMC_INST IMMC_INST_STR (Some (IMMC_OPERAND_MEM 16)) (Some (IMMC_OPERAND_STR s)) None) st = Ok (cs, st')
  /\ nth_error s 1 = Some 98 /\ location w_env w_state (IMMC_OPERAND_MEM 16) = Some 89 /\ runs w_env cs w_state (Next m') /\ peek (X64Isa.mem m') (89 + 1) <> 98.
Proof. exact string_sign_witness. Qed.
Print Assumptions C43_string_sign_refuted.

(** Unsigned 4-byte to 8-byte conversion is wrong in place, and otherwise does not assemble; nor does the store of a large literal: *)
Theorem C43_widen_in_place_refuted :   exists d f st cs st' m m', gen_inst_x64code (IMMC_INST IMMC_INST_LOAD (Some d) (Some f) None) st = Ok (cs, st')
    /\ is_register d /\ is_register f /\ value m f = Some 5 /\ runs w_env cs m (Next m') /\ value m' d <> Some 5.
Proof. exact widen_in_place_witness. Qed.
Print Assumptions C43_widen_in_place_refuted.

Theorem C43_widen_move_refuted :   exists d f st cs st', gen_inst_x64code (IMMC_INST IMMC_INST_LOAD (Some d) (Some f) None) st = Ok (cs, st')
    /\ is_register d /\ is_register f /\ insns cs = None.
Proof. exact widen_move_witness. Qed.
Print Assumptions C43_widen_move_refuted.

Theorem C43_store_literal_refuted :   exists v st cs st', gen_inst_x64code (IMMC_INST IMMC_INST_STORE (Some (IMMC_OPERAND_MEM 8))
      (Some (IMMC_OPERAND_INT IMMC_SUFFIX_QUAD (new_unsigned IULongLong v))) None) st = Ok (cs, st')
    /\ 0 <= v < 2 ^ 64 /\ insns cs = None.
Proof. exact store_literal_witness. Qed.
Print Assumptions C43_store_literal_refuted.
