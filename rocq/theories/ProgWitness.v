(** Programs that are accepted and have a meaning, and what becomes of them: counterexamples for C32 and C48 *)
From Verif Require Export FrontModel.
From Verif Require Import Base DriverModel SrtModel ResolverModel ImmcModel ImmcgenModel X64Isa X64Decode CSem CProgram Machine TestLib TestC.
Open Scope Z_scope.

(** Full statement of C32, as far as there is data at all *)
Definition static_data_emitted : Prop := forall src s fuel r, front src = Ok s -> run_program testlib_names c_testlib fuel s = Ok r -> exists C, immcgen s = Ok C.
Definition negative_global := bytes "int x = -1; int main(void){ return x; }".
Lemma static_data_refuted : ~ static_data_emitted.
Proof.
  intros H. destruct (front negative_global) as [s | | | |] eqn:E; [| vm_compute in E; discriminate E ..].
  destruct (run_program testlib_names c_testlib 10 s) as [r | | | |] eqn:R.
  - destruct (H _ _ _ _ E R) as (C & X). vm_compute in E. injection E as <-. vm_compute in X. discriminate X.
  - vm_compute in E. injection E as <-. vm_compute in R. discriminate R.
  - vm_compute in E. injection E as <-. vm_compute in R. discriminate R.
  - vm_compute in E. injection E as <-. vm_compute in R. discriminate R.
  - vm_compute in E. injection E as <-. vm_compute in R. discriminate R.
Qed.

(** Full statement of C48: the program does not go wrong, and if it ends it ends as C says *)
Definition compiled_faithfully (src : list Z) : Prop := forall fuel st o, c_run fuel src = Ok (st, o) ->
  exists im, (do codes <- compile_codes src; match decode_items codes with Some items => match load_program items 170 with Some im => Ok im | None => Err end | None => Err end) = Ok im
    /\ forall k, match run im testlib_names testlib k with Running _ => True | Exit st' o' => st' = st /\ o' = o | Wrong => False end.
(** the program is compiled and runs, but the outcome is another *)
Definition miscompiled (src : list Z) (st st' : Z) : Prop := c_run 1000 src = Ok (st, []) /\ run_source 1000 src = Ok (Exit st' []) /\ st <> st'.
Lemma miscompiled_not src st st' : miscompiled src st st' -> ~ compiled_faithfully src.
Proof.
  intros (A & B & C) H. destruct (H _ _ _ A) as (im & E & R). unfold run_source in B. destruct (compile_codes src) as [c | | | |]; try discriminate E. cbn [bind] in *. destruct (decode_items c) as [it |]; [| discriminate E].
  destruct (load_program it 170) as [im' |]; [| discriminate E]. injection E as ->. assert (B' : run im testlib_names testlib (Z.to_nat 1000) = Exit st' []) by congruence. specialize (R (Z.to_nat 1000)). rewrite B' in R. destruct R as [R _]. congruence.
Qed.
(** the old value of a postfix operand is kept in the register of the new one *)
Definition postfix_compared := bytes "int main(void){int i=5; int b = i++ == 3; return b;}".
(** the divisor of the innermost division is overwritten when all registers are in use *)
Definition deep_division := bytes "int main(void){ int a=1; int b=100; return a+(a+(a+(a+(a+(a+(a+b/3))))));}".
(** shifts of unsigned operands are arithmetic *)
Definition unsigned_shift := bytes "int main(void){ unsigned int x = 2147483647; x = x + x + 1; return (x >> 31) == 1; }".
(** the value of an assignment through a pointer to pointer *)
Definition assigned_pointer := bytes "int main(void){ int a; int b; int *q=&b; int *p=&a; int **pp=&p; a=1; b=2; return *(*pp = q) == 2; }".
Lemma postfix_miscompiled : miscompiled postfix_compared 0 5.
Proof. split; [vm_compute; reflexivity |]. split; [vm_compute; reflexivity | discriminate]. Qed.
Lemma division_miscompiled : miscompiled deep_division 40 42.
Proof. split; [vm_compute; reflexivity |]. split; [vm_compute; reflexivity | discriminate]. Qed.
Lemma shift_miscompiled : miscompiled unsigned_shift 1 0.
Proof. split; [vm_compute; reflexivity |]. split; [vm_compute; reflexivity | discriminate]. Qed.
Lemma not_faithful : ~ forall src, compiled_faithfully src.
Proof. intros H. exact (miscompiled_not _ _ _ postfix_miscompiled (H _)). Qed.
