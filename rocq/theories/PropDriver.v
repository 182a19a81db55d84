(** C47: the driver.
    [main args files writable]: the effect of the command on a file system in which [files] gives the
    content of the readable files and [writable] the names that can be opened for writing. *)
From Verif Require Import Base DriverModel DriverProofs DriverWitness.
Local Open Scope Z_scope.

(** Whenever the command ends, it has either exited with 1 and written nothing, or exited with 0 and written
    exactly the assembly of the whole source file to the name with extension .s *)
Theorem C47_effect : forall args files writable e, main args files writable = Ok e ->
  (status e = 1 /\ written e = None) \/
  (status e = 0 /\ exists base content text, args = [base ++ bytes ".c"] /\ files (base ++ bytes ".c") = Some content
     /\ compiles content text /\ written e = Some (base ++ bytes ".s", text)).
Proof. exact main_effect. Qed.
Print Assumptions C47_effect.

(** A stage that reports an error ([rejects]: empty file, an error or an "unreachable statement") *)
Theorem C47_rejects : forall base content files writable, files (base ++ bytes ".c") = Some content -> rejects content ->
  main [base ++ bytes ".c"] files writable = Ok (mkeffect 1 None).
Proof. exact main_rejects. Qed.
Print Assumptions C47_rejects.
Example C47_rejects_case : rejects (bytes "int main(void){return x;}" ++ [10]).
Proof. right. left. vm_compute. reflexivity. Qed.

(** Any other arguments than one readable *.c file *)
Theorem C47_bad_arguments : forall args files writable,
  ~ (exists base content, args = [base ++ bytes ".c"] /\ files (base ++ bytes ".c") = Some content) ->
  main args files writable = Ok (mkeffect 1 None).
Proof. exact main_bad_arguments. Qed.
Print Assumptions C47_bad_arguments.

(** Success *)
Theorem C47_writes : forall base content text files writable, files (base ++ bytes ".c") = Some content -> compiles content text ->
  writable (base ++ bytes ".s") = true ->
  main [base ++ bytes ".c"] files writable = Ok (mkeffect 0 (Some (base ++ bytes ".s", text))).
Proof. exact main_compiles. Qed.
Print Assumptions C47_writes.
Example C47_writes_case : exists text, compiles (bytes "int main(void){return 0;}" ++ [10]) text.
Proof. exact small_compiles. Qed.

(** An output file that cannot be opened is not reported but dereferenced, and some sources crash the
    compiler instead of being rejected *)
Theorem C47_unwritable_refuted : exists args files text,
  (exists content, args = [bytes "a.c"] /\ files (bytes "a.c") = Some content /\ compiles content text)
  /\ main args files (fun _ => false) = UB.
Proof. exact unwritable_witness. Qed.
Print Assumptions C47_unwritable_refuted.
Theorem C47_crash_refuted : exists content, main [bytes "a.c"] (fun _ => Some content) (fun _ => true) = UB.
Proof. exact crash_witness. Qed.
Print Assumptions C47_crash_refuted.
