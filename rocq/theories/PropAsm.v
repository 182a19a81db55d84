(** C46: the printed assembly.
    [read_file] (AsmSpec) is an assembler's reading of a text; [decode_items] gives the instructions, labels and
    bytes that the compiler's internal codes mean, if they mean anything. *)
From Coq Require Import Lia.
From Verif Require Import Base DriverModel X64Decode AsmSpec AsmProofs AsmProofs2 AsmProofs3 AsmWitness.
From Verif Require Import X64Isa.
Local Open Scope Z_scope.

(** The text of any list of codes, read by the assembler, gives back exactly those instructions, labels and
    bytes.  [readable_code]: label names are symbols, strings have characters the assembler's escapes cover
    (C09), and the low word of R13 is not used. *)
Theorem C46_read_back_partial : forall l items txt, decode_items l = Some items -> Forall readable_code l -> print_x64 l = Ok txt ->
  read_file txt = Some items.
Proof. exact file_read. Qed.
Print Assumptions C46_read_back_partial.

(** The text determines the program. *)
Theorem C46_unambiguous_partial : forall l l' items items' txt,
  decode_items l = Some items -> decode_items l' = Some items' -> Forall readable_code l -> Forall readable_code l' ->
  print_x64 l = Ok txt -> print_x64 l' = Ok txt -> items = items'.
Proof. exact file_unambiguous. Qed.
Print Assumptions C46_unambiguous_partial.
Example C46_case : exists txt, let l := [X64_LABEL X64_LABEL_FUNCTION X64_VIS_GLOBAL (bytes "main");
    X64_INST X64_INST_ADDX (Some (X64_OPERAND_INT X64_SUFFIX_LONG (new_signed IInt (-12)))) (Some (X64_OPERAND_REG X64_SUFFIX_LONG R8_REG_ID));
    X64_INST X64_INST_RET None None; X64_LABEL X64_LABEL_VARIABLE X64_VIS_LOCAL (bytes ".S0"); X64_STR_DATA X64_DATA_STR [65; 10; 0]] in
  Forall readable_code l /\ print_x64 l = Ok txt /\
  decode_items l = Some [Label Text (bytes "main"); Insn (Alu X64Isa.Add S4 (Imm (-12)) R8); Insn Ret; Label Data (bytes ".S0"); Bytes [65; 10; 0]].
Proof.
  eexists. cbn zeta. split; [| split; [vm_compute; reflexivity | vm_compute; reflexivity]].
  repeat constructor; try lia; try reflexivity; discriminate.
Qed.

(** No buffer is overrun by instructions on names up to 43 characters, labels up to 89, 64-bit numbers and
    7-bit strings up to 47 characters. *)
Theorem C46_instruction_in_bounds : forall t src dst, has_operands t src dst -> fits_opt src -> fits_opt dst ->
  exists s, x64inst_tostring t src dst = Ok s.
Proof. exact inst_fits. Qed.
Print Assumptions C46_instruction_in_bounds.
Theorem C46_label_in_bounds : forall t v n, short 89 n -> exists s, x64label_tostring t v n = Ok s.
Proof. exact label_fits. Qed.
Print Assumptions C46_label_in_bounds.
Theorem C46_number_in_bounds : forall t i, t <> X64_DATA_STR -> lit_range i -> exists s, x64data_tostring t (Some i) None = Ok s.
Proof. exact int_data_fits. Qed.
Print Assumptions C46_number_in_bounds.
Theorem C46_string_in_bounds : forall s, Forall (fun c => 0 <= c <= 127) s -> Z.of_nat (length s) <= 47 ->
  exists t, x64data_tostring X64_DATA_STR None (Some s) = Ok t.
Proof. exact str_data_fits. Qed.
Print Assumptions C46_string_in_bounds.
Example C46_bounds_case : fits_opt (Some (X64_OPERAND_LABEL (repeat 97 43))) /\ fits_opt (Some (X64_OPERAND_REG X64_SUFFIX_QUAD AX_REG_ID))
  /\ lit_range (new_signed ILong (-9223372036854775808)).
Proof. repeat split; try discriminate; cbn; lia. Qed.

(** Beyond that the property is false: *)
Theorem C46_r13_refuted : exists txt, x64ope_tostring (X64_OPERAND_REG X64_SUFFIX_WORD R13_REG_ID) = Ok txt /\ read_operand txt = None.
Proof. exact r13_witness. Qed.
Print Assumptions C46_r13_refuted.
Theorem C46_long_name_refuted : exists n src codes, symbol n = true /\ Z.of_nat (length n) = 44 /\
  src = bytes "int " ++ n ++ bytes "; int main(void){return " ++ n ++ bytes ";}" ++ [10] /\
  compile_codes src = Ok codes /\ print_x64 codes = UB.
Proof. exact long_name_witness. Qed.
Print Assumptions C46_long_name_refuted.
Theorem C46_long_string_refuted : exists src codes,
  src = bytes "int puts(char* s); int main(void){puts(" ++ 34 :: repeat 97 (Z.to_nat 200) ++ 34 :: bytes "); return 0;}" ++ [10] /\
  compile_codes src = Ok codes /\ print_x64 codes = UB.
Proof. exact long_string_witness. Qed.
Print Assumptions C46_long_string_refuted.
