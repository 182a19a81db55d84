(** C29: labels and jumps of the intermediate code (LabelSpec) and of the assembly code (AsmLabelSpec) *)
From Verif Require Import Base DriverModel AstModel SrtModel ResolverModel ImmcModel ImmcgenModel ResolverWitness LabelSpec LabelProofs3 RegallocModel X64Model X64genModel FrontModel NameProofs AsmLabelSpec AsmLabelProofs.
Local Open Scope Z_scope.

(** C29, for the intermediate code.  [front] is the lexer, the parser and the resolver. *)
Theorem C29_labels : forall src s cs,
  front src = Ok s -> immcgen s = Ok cs -> NoDup (labels cs) /\ jumps_resolved cs.
Proof. exact source_labels. Qed.
Print Assumptions C29_labels.
Definition C29_source : list Z := bytes "int n; int x[2] = {1, 2}; char *g(void){ return ""abc""; } int f(int a){ int i; for (i = 0; i < a; i++) { switch (i) { case 1: continue; case 2: if (a && n || !i) break; default: while (a--) n += i ? 1 : 2; } } return n; } int main(void){ return f(3); }".
Example C29_case : exists s cs, front C29_source = Ok s /\ immcgen s = Ok cs /\ length (labels cs) = 25%nat.
Proof. eexists. eexists. split; [vm_compute; reflexivity |]. split; [vm_compute; reflexivity |]. reflexivity. Qed.

(** C29, for the assembly code *)
Theorem C29_assembly_labels : forall src s cs n code lives X,
  front src = Ok s -> immcgen s = Ok cs -> allocate_regs n cs = Ok (code, lives) -> x64gen code lives = Ok X ->
  NoDup (x64_labels X) /\ x64_jumps_resolved X.
Proof. exact source_assembly_labels. Qed.
Print Assumptions C29_assembly_labels.
Example C29_assembly_case : exists s cs code lives X, front C29_source = Ok s /\ immcgen s = Ok cs /\ allocate_regs (Z.to_nat NUM_CALLER_SAVED_REGS) cs = Ok (code, lives) /\ x64gen code lives = Ok X
  /\ length (x64_labels X) = 25%nat /\ length (filter (fun c => match c with X64_INST X64_INST_JMP _ _ => true | _ => false end) X) = 11%nat.
Proof. do 5 eexists. repeat (split; [vm_compute; reflexivity |]). vm_compute. reflexivity. Qed.
