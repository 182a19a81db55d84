(** Proofs for C48: one instruction of a function without calls *)
From Coq Require Import Lia ZifyBool.
From Verif Require Import Base ElabProofs ImmcModel X64Model X64genModel X64Decode OpSpec CSem ImmcSem IsaProofs IsaMemProofs X64genProofs X64genProofs2 X64genProofs3 X64genProofs4 X64genProofs5 RegSpec MarkSpec SimSpec SimProofs X64Isa.
Local Open Scope Z_scope.

Section Sim.
Variables (place : Z -> Z) (call : caller) (lab : name -> option Z) (frame : Z) (params : list (size * Z)).
Notation istep := (istep call lab frame params).
Notation agree := (agree frame).
Notation has := (has place).
Notation moved := (moved frame).
Notation spot := (spot place).
Notation sim_ok := (sim_ok place lab frame).
Lemma agree_moved q m st' : agree q m -> moved q m q m st'.
Proof. intros A. constructor; auto. Qed.
Lemma inst_sim (Lp L' : Z -> Prop) after st cs st' q m t d f g : agree q m -> (forall r, Lp r -> has q m r) -> spot Lp L' after st (IMMC_INST t d f g) ->
  fits after (List.map (renamed place) after) (IMMC_INST t d f g) (renamed place (IMMC_INST t d f g)) -> loads_argument (IMMC_INST t d f g) = false -> returns_value (IMMC_INST t d f g) = false ->
  gen_inst_x64code (renamed place (IMMC_INST t d f g)) st = Ok (cs, st') ->
  match istep (IMMC_INST t d f g) q with
  | INext q' => exists m', runs lab cs m (Next m') /\ moved q m q' m' st' /\ (forall r, L' r -> has q' m' r) /\ i_ret q' = i_ret q
  | IGoto n q' => exists m', runs lab cs m (Goto n m') /\ moved q m q' m' st' /\ (forall r, Lp r -> has q' m' r) /\ i_ret q' = i_ret q /\ goes_to (IMMC_INST t d f g) = Some n /\ (t = IMMC_INST_JMP -> m' = m)
  | _ => True
  end.
Proof.
  intros Ag Has Sp Fi LA RV G. cbn [renamed] in Fi, G. unfold fits in Fi.
  destruct (istep (IMMC_INST t d f g) q) as [q' | n q' | |] eqn:St; try exact Logic.I.
  - destruct t; try discriminate LA; try discriminate RV; destruct d as [d |], f as [f |], g as [g |]; change (renamed_operand place None) with (@None ope) in Fi, G; rewrite ?(renamed_some place) in *; cbv beta iota in Fi;
      try (match type of Fi with False => destruct Fi end).
    all: try (destruct d; cbn [ren] in Fi; destruct Fi; fail).
    all: try (destruct d; try (destruct Fi; fail); discriminate St).
    all: try solve [destruct Fi as (X1 & X2); eapply binary_sim; eauto; [cbn; tauto | destruct X1 as (s & Y1 & Y2); exists s; split; [exact Y1 |]; split; [exact Y2 | discriminate]]].
    all: try solve [destruct Fi as ((s & Y1 & Y2 & Y3) & X2 & X3); refine (binary_sim place call lab frame params Lp L' after st cs st' q m q' Has Ag _ d f g _ Sp _ X3 G St); [cbn; tauto | exists s; auto]].
    all: try solve [destruct Fi as (X1 & X2 & X3 & X4 & X5); eapply division_sim; eauto; cbn; tauto].
    all: try solve [destruct Fi as (X1 & X2 & X3 & X4); eapply unary_sim; eauto; cbn; tauto].
    all: try solve [destruct Fi as (X1 & X2 & X3 & X4); eapply setcmp_sim; eauto; unfold is_setcmp; cbn; tauto].
    all: try solve [destruct Fi as (X1 & X2 & X3); eapply shift_sim; eauto; cbn; tauto].
    all: try solve [destruct Fi as (X1 & X2); eapply load_sim; eauto].
    all: try solve [destruct Fi as (X1 & X2); eapply addr_sim; eauto].
    all: try solve [destruct Fi as (X1 & X2); eapply store_sim; eauto].
    all: destruct d; try (destruct Fi; fail);
      match goal with H : istep (IMMC_INST ?t (Some (IMMC_OPERAND_LABEL ?n)) (Some ?f) (Some ?g)) ?q = _ |- _ =>
        destruct (jcmp_sim place call lab frame params Lp L' after st cs st' q m Has Ag t n f g ltac:(unfold is_jcmp; cbn; tauto) Sp Fi G _ H ltac:(discriminate)) as (m' & [[X _] | [X R]] & M & V); [discriminate X |];
        injection X as ->; exists m'; split; [exact R |]; split; [exact M |]; split; [| reflexivity]; intros r Lr; apply V; apply (sp_before _ _ _ _ _ _ Sp _ Lr); cbn; discriminate
      end.
  - destruct t; try discriminate LA; try discriminate RV; destruct d as [d |], f as [f |], g as [g |]; try discriminate St; change (renamed_operand place None) with (@None ope) in Fi, G; rewrite ?(renamed_some place) in *; cbv beta iota in Fi;
      try (match type of Fi with False => destruct Fi end).
    all: try (destruct d; try (destruct Fi; fail);
      match goal with H : istep (IMMC_INST ?t (Some (IMMC_OPERAND_LABEL ?n0)) (Some ?f) (Some ?g)) ?q = _ |- _ =>
        destruct (jcmp_sim place call lab frame params Lp L' after st cs st' q m Has Ag t n0 f g ltac:(unfold is_jcmp; cbn; tauto) Sp Fi G _ H ltac:(discriminate)) as (m' & [[X R] | [X _]] & M & V); [| discriminate X];
        injection X as -> ->; exists m'; split; [exact R |]; split; [exact M |]; split; [exact V |]; split; [reflexivity |]; split; [reflexivity | discriminate]
      end).
    all: try (destruct d; try (destruct Fi; fail); cbn [ImmcSem.istep] in St; injection St as <- <-; exists m; split; [eapply jmp_correct; exact G |]; split; [now apply agree_moved |]; split; [exact Has |]; auto).
    all: exfalso; cbn [ImmcSem.istep] in St; unfold put_result in St; repeat (match type of St with context [match ?x with _ => _ end] => destruct x end; try discriminate St).
Qed.
End Sim.
