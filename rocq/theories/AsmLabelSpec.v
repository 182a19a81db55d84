(** C29: labels and jumps of the assembly code *)
From Verif Require Import Base X64Model.
Local Open Scope Z_scope.

Definition x64_label_of (c : x64) : list name := match c with X64_LABEL _ _ n => [n] | _ => [] end.
Definition x64_labels (X : list x64) : list name := flat_map x64_label_of X.
(** functions and variables begin with these *)
Definition x64_entry (c : x64) : Prop := exists v n, c = X64_LABEL X64_LABEL_FUNCTION v n \/ c = X64_LABEL X64_LABEL_VARIABLE v n.
Definition x64_jumps : list xinst := [
  X64_INST_JMP; X64_INST_JE; X64_INST_JNE; X64_INST_JA; X64_INST_JAE; X64_INST_JB; X64_INST_JBE;
  X64_INST_JG; X64_INST_JGE; X64_INST_JL; X64_INST_JLE].
(** every jump goes to a label of the function it is in: no entry lies between the two *)
Definition x64_jumps_resolved (X : list x64) : Prop :=
  forall c1 t src dst c2, X = c1 ++ X64_INST t src dst :: c2 -> In t x64_jumps ->
  exists before e b1 b2 after l, c1 = before ++ e :: b1 /\ c2 = b2 ++ after /\ x64_entry e
    /\ (forall c, In c (b1 ++ b2) -> ~ x64_entry c) /\ dst = Some (X64_OPERAND_JLABEL l) /\ In l (x64_labels (b1 ++ b2)).
