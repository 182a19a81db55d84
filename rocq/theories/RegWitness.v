(** Code for which liveness, allocation or the flow analysis go wrong: counterexamples for C35 to C38 *)
From Verif Require Import Base DriverModel SetModel ImmcModel ImmcgenModel ImmcSem ImmcProgram RegallocModel LabelSpec RegSpec RegProofs CSem CProgram TestLib TestC ResolverModel ProgWitness.
Open Scope Z_scope.

Definition reg i := new_signed_reg_immcope IMMC_SUFFIX_LONG i.
Definition num v := new_signed_int_immcope IMMC_SUFFIX_LONG IInt v.
Definition size16 := IMMC_OPERAND_INT IMMC_SUFFIX_QUAD (new_signed IInt 16).
Definition enter := IMMC_INST IMMC_INST_ENTER None (Some size16) None.
Definition leave := IMMC_INST IMMC_INST_LEAVE None (Some size16) None.
Definition main_label := IMMC_LABEL IMMC_LABEL_FUNCTION IMMC_VIS_GLOBAL (bytes "main").
Definition load r o := IMMC_INST IMMC_INST_LOAD (Some (reg r)) (Some o) None.
Definition add r a b := IMMC_INST IMMC_INST_ADD (Some (reg r)) (Some a) (Some b).
Definition store o a := IMMC_INST IMMC_INST_STORE (Some o) (Some a) None.
Definition stret a := IMMC_INST IMMC_INST_STRET None (Some a) None.
Definition jump_if t n a b := IMMC_INST t (Some (IMMC_OPERAND_LABEL (create_label_name n))) (Some a) (Some b).

(** * C35: a loop closed by JLT. Register 0 is read in every iteration. *)
Definition less_loop : list immc :=
  [main_label; enter; load 0 (num 5); load 1 (num 0); store (IMMC_OPERAND_MEM 8) (reg 1);
   normal_label 1;
   add 2 (reg 0) (num 1); load 3 (IMMC_OPERAND_MEM 8); add 4 (reg 3) (num 1); store (IMMC_OPERAND_MEM 8) (reg 4); jump_if IMMC_INST_JLT 1 (reg 4) (num 3);
   stret (reg 2); leave].
(** in the computed ranges, register [r] is live at point [p] *)
Definition in_range_at (l : list liveness) (r : Z) (p : Z) : Prop := exists x, range l r x /\ first_def x < p <= last_use x.
Definition liveness_right : Prop := forall fn g g' fuel l, NoDup (labels fn) -> ends_in_label fn = false ->
  connect_basic_blocks (create_basic_blocks fn []) = Ok g -> analyze_register_flow fuel g = Ok g' -> analyze_register_liveness [] g' 0 = Ok l ->
  forall p r, live fn p r -> exists x, range l r x /\ Z.of_nat p <= last_use x.
Lemma less_loop_live : live less_loop 9 0.
Proof.
  eapply live_later with (q := 10%nat); [reflexivity | discriminate | eexists; split; [reflexivity |]; left; split; reflexivity |].
  eapply live_later with (q := 5%nat); [reflexivity | discriminate | eexists; split; [reflexivity |]; right; eexists; split; [reflexivity | vm_compute; reflexivity] |].
  eapply live_later with (q := 6%nat); [reflexivity | discriminate | eexists; split; [reflexivity |]; left; split; reflexivity |].
  eapply live_read; [reflexivity | now left].
Qed.
Lemma nodup_less : NoDup (labels less_loop).
Proof. repeat (constructor; [vm_compute; intuition discriminate |]). constructor. Qed.
Lemma liveness_refuted : ~ liveness_right.
Proof.
  intros H.
  destruct (connect_basic_blocks (create_basic_blocks less_loop [])) as [g | | | |] eqn:G; [| vm_compute in G; discriminate G ..].
  destruct (analyze_register_flow 4 g) as [g' | | | |] eqn:F; [| vm_compute in G; injection G as <-; vm_compute in F; discriminate F ..].
  destruct (analyze_register_liveness [] g' 0) as [l | | | |] eqn:A; [| vm_compute in G; injection G as <-; vm_compute in F; injection F as <-; vm_compute in A; discriminate A ..].
  destruct (H _ _ _ _ _ nodup_less eq_refl G F A _ _ less_loop_live) as (x & X & L).
  vm_compute in G. injection G as <-. vm_compute in F. injection F as <-. vm_compute in A. injection A as <-. cbn in X. injection X as <-. cbn in L. lia.
Qed.

(** the same loop closed by JNEQ *)
Definition unequal_loop : list immc :=
  [main_label; enter; load 0 (num 5); load 1 (num 0); store (IMMC_OPERAND_MEM 8) (reg 1);
   normal_label 1;
   add 2 (reg 0) (num 1); load 3 (IMMC_OPERAND_MEM 8); add 4 (reg 3) (num 1); store (IMMC_OPERAND_MEM 8) (reg 4); jump_if IMMC_INST_JNEQ 1 (reg 4) (num 3);
   stret (reg 2); leave].
Lemma unequal_loop_live : live unequal_loop 9 0.
Proof.
  eapply live_later with (q := 10%nat); [reflexivity | discriminate | eexists; split; [reflexivity |]; left; split; reflexivity |].
  eapply live_later with (q := 5%nat); [reflexivity | discriminate | eexists; split; [reflexivity |]; right; eexists; split; [reflexivity | vm_compute; reflexivity] |].
  eapply live_later with (q := 6%nat); [reflexivity | discriminate | eexists; split; [reflexivity |]; left; split; reflexivity |].
  eapply live_read; [reflexivity | now left].
Qed.
Lemma nodup_unequal : NoDup (labels unequal_loop).
Proof. repeat (constructor; [vm_compute; intuition discriminate |]). constructor. Qed.

(** * C36: the loop returns 6 before allocation, and 8 after it *)
Definition allocation_right : Prop := forall exts ext C C' n seqs k fuel r,
  allocate_regs n C = Ok (C', seqs) -> NoDup (labels C) -> irun_program exts ext C k fuel = Ok r -> irun_program exts ext C' k fuel = Ok r.
Lemma allocation_refuted : ~ allocation_right.
Proof.
  intros H. destruct (allocate_regs 8 less_loop) as [[C' sq] | | | |] eqn:A; [| vm_compute in A; discriminate A ..].
  assert (R : irun_program [] (fun _ _ _ => None) less_loop 100 5 = Ok (6, [])) by (vm_compute; reflexivity).
  assert (R' := H _ _ _ _ _ _ _ _ _ A nodup_less R). vm_compute in A. injection A as <- _. vm_compute in R'. discriminate R'.
Qed.

(** * C37: one block that jumps to itself *)
Definition flow_terminates_always : Prop := forall fn g, NoDup (labels fn) -> connect_basic_blocks (create_basic_blocks fn []) = Ok g -> exists fuel g', analyze_register_flow fuel g = Ok g'.
Definition swinging : list immc :=
  [main_label; enter; normal_label 1;
   add 2 (reg 2) (reg 2); load 5 (num 1); stret (reg 1); stret (reg 0); load 1 (reg 5); load 0 (num 1); load 4 (num 1); load 2 (num 1); load 3 (num 1); add 1 (reg 5) (reg 3);
   jmp_to 1; normal_label 2; leave].
Definition forward_code : list immc := [main_label; enter; load 0 (num 1); jump_if IMMC_INST_JEQ 1 (reg 0) (num 0); load 1 (num 2); normal_label 1; stret (reg 0); leave].
Lemma nodup_swinging : NoDup (labels swinging).
Proof. repeat (constructor; [vm_compute; intuition discriminate |]). constructor. Qed.
Lemma swings fuel : forall g g', flow_round (length g) g true = Ok (g', false) -> flow_round (length g') g' true = Ok (g, false) -> analyze_register_flow fuel g = Fuel /\ analyze_register_flow fuel g' = Fuel.
Proof. induction fuel as [| f IH]; intros g g' A B; [split; reflexivity |]. destruct (IH _ _ A B) as [X Y]. cbn [analyze_register_flow]. rewrite A, B. cbn [bind]. auto. Qed.
Definition block_graph (fn : list immc) : list block := match connect_basic_blocks (create_basic_blocks fn []) with Ok g => g | _ => [] end.
Definition round_of (g : list block) : list block := match flow_round (length g) g true with Ok (g', _) => g' | _ => [] end.
Definition swing0 := Eval vm_compute in block_graph swinging.
Definition swing1 := Eval vm_compute in round_of swing0.
Definition swing2 := Eval vm_compute in round_of swing1.
Definition swing3 := Eval vm_compute in round_of swing2.
Definition swing4 := Eval vm_compute in round_of swing3.
Lemma flow_refuted : ~ flow_terminates_always.
Proof.
  intros H. destruct (H swinging swing0 nodup_swinging) as (fuel & g' & E); [vm_compute; reflexivity |].
  destruct (swings (fuel - 3) swing3 swing4) as [X _]; [vm_compute; reflexivity | vm_compute; reflexivity |].
  destruct fuel as [| [| [| fuel]]]; try (vm_compute in E; discriminate E). replace (S (S (S fuel)) - 3)%nat with fuel in X by lia.
  assert (Y : analyze_register_flow (S (S (S fuel))) swing0 = analyze_register_flow fuel swing3).
  { cbn [analyze_register_flow]. replace (flow_round (length swing0) swing0 true) with (Ok (swing1, false)) by (vm_compute; reflexivity). cbn [bind]. replace (flow_round (length swing1) swing1 true) with (Ok (swing2, false)) by (vm_compute; reflexivity). cbn [bind]. replace (flow_round (length swing2) swing2 true) with (Ok (swing3, false)) by (vm_compute; reflexivity). reflexivity. }
  rewrite Y, X in E. discriminate E.
Qed.

(** * C38 *)
Definition pressure_handled : Prop := forall src s C fuel r, front src = Ok s -> immcgen s = Ok C -> run_program testlib_names c_testlib fuel s = Ok r -> (exists C' sq, allocate_regs 8 C = Ok (C', sq)) \/ allocate_regs 8 C = Err.
Definition deep_sum := bytes "int main(void){ int a = 1; return a+(a+(a+(a+(a+(a+(a+(a+(a+(a+a))))))))); }".
Lemma pressure_refuted : ~ pressure_handled.
Proof.
  intros H. destruct (front deep_sum) as [s | | | |] eqn:F; [| vm_compute in F; discriminate F ..]. destruct (immcgen s) as [C | | | |] eqn:G; [| vm_compute in F; injection F as <-; vm_compute in G; discriminate G ..].
  assert (R : run_program testlib_names c_testlib 1000 s = Ok (11, [])) by (vm_compute in F; injection F as <-; vm_compute; reflexivity).
  assert (A := H _ _ _ _ _ F G R). vm_compute in F. injection F as <-. vm_compute in G. injection G as <-. destruct A as [(C' & sq & A) | A]; vm_compute in A; discriminate A.
Qed.
