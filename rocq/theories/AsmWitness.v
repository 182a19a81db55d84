(** Assembly text that is wrong (C46). *)
From Verif Require Import Base DriverModel X64Decode AsmSpec AsmProofs3.
From Verif Require Import X64Isa.
Open Scope Z_scope.

(** the low word of R13 has the name of no register *)
Lemma r13_witness : exists txt, x64ope_tostring (X64_OPERAND_REG X64_SUFFIX_WORD R13_REG_ID) = Ok txt /\ read_operand txt = None.
Proof. eexists. split; [vm_compute; reflexivity | vm_compute; reflexivity]. Qed.
(** a global variable with a name of 44 characters: the operand buffer has 50 bytes *)
Definition long_name : list Z := repeat 97 44.
Lemma long_name_witness : exists n src codes, symbol n = true /\ Z.of_nat (length n) = 44 /\
  src = bytes "int " ++ n ++ bytes "; int main(void){return " ++ n ++ bytes ";}" ++ [10] /\
  compile_codes src = Ok codes /\ print_x64 codes = UB.
Proof. exists long_name. eexists _, _. split; [reflexivity |]. split; [reflexivity |]. split; [reflexivity |]. split; [vm_compute; reflexivity | vm_compute; reflexivity]. Qed.
(** a string of 200 letters: the data buffer has 200 bytes *)
Lemma long_string_witness : exists src codes,
  src = bytes "int puts(char* s); int main(void){puts(" ++ 34 :: repeat 97 (Z.to_nat 200) ++ 34 :: bytes "); return 0;}" ++ [10] /\
  compile_codes src = Ok codes /\ print_x64 codes = UB.
Proof. eexists _, _. split; [reflexivity |]. split; [vm_compute; reflexivity | vm_compute; reflexivity]. Qed.
Lemma file_unambiguous l l' items items' txt :
  decode_items l = Some items -> decode_items l' = Some items' -> Forall readable_code l -> Forall readable_code l' ->
  print_x64 l = Ok txt -> print_x64 l' = Ok txt -> items = items'.
Proof.
  intros D D' R R' P P'. pose proof (file_read _ _ _ D R P) as A. pose proof (file_read _ _ _ D' R' P') as B. congruence.
Qed.
