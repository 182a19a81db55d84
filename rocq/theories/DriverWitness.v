(** The driver: a case that fails without an error (C47). *)
From Verif Require Import Base DriverModel DriverProofs.
Open Scope Z_scope.
Definition small : list Z := bytes "int main(void){return 0;}" ++ [10].
Lemma small_compiles : exists text, compiles small text.
Proof. eexists. split; [discriminate | vm_compute; reflexivity]. Qed.
(** the output file cannot be opened: a NULL stream is written to *)
Lemma unwritable_witness : exists args files text,
  (exists content, args = [bytes "a.c"] /\ files (bytes "a.c") = Some content /\ compiles content text)
  /\ main args files (fun _ => false) = UB.
Proof.
  destruct small_compiles as (text & C). exists [bytes "a.c"], (fun _ => Some small), text. split; [now exists small |].
  vm_compute. reflexivity.
Qed.
(** a program on which the compiler itself goes wrong *)
Lemma crash_witness : exists content, main [bytes "a.c"] (fun _ => Some content) (fun _ => true) = UB.
Proof. exists (bytes "int x = -1;" ++ [10]). vm_compute. reflexivity. Qed.
