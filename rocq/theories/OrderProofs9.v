(** Proofs for C35, C36 and C48: register allocation of compiled programs *)
From Verif Require Import Base AstModel SrtModel ResolverModel ImmcModel ImmcgenModel ImmcSem ImmcProgram CSem CProgram GenSpec ProgSpec LabelSpec LabelProofs LabelProofs3 ProgProofs2 RegallocModel ElabProofs RegSpec RegProofs RegProofs2 RegProofs3 RegProofs4 RegProofs6 RegProofs7 OrderSpec OrderProofs8.
Open Scope Z_scope.

Lemma function_labels_distinct C fn : NoDup (labels C) -> function_in C fn -> NoDup (labels fn).
Proof. intros ND (A & B & -> & _). rewrite !labels_app in ND. eapply nodup_app_l, nodup_app_r, ND. Qed.
Theorem compiled_live a s C fn g g' fuel off l p r : resolve a = Ok s -> plain_names s -> immcgen s = Ok C -> pointers_last s = true -> function_in C fn ->
  connect_basic_blocks (create_basic_blocks fn []) = Ok g -> analyze_register_flow fuel g = Ok g' -> analyze_register_liveness [] g' off = Ok l ->
  live fn p r -> exists x, range l r x /\ first_def x < off + Z.of_nat p <= last_use x.
Proof.
  intros R PN G PL F E1 E2 E3 L. pose proof (program_orderly _ _ _ R PN G PL _ F) as O. destruct (program_labels _ _ _ R PN G) as [ND _].
  exact (liveness_contains _ _ _ _ _ _ _ _ (function_labels_distinct _ _ ND F) (stops_tail _ O) (or_loops _ O) E1 E2 E3 L (or_written _ O _ _ L)).
Qed.
Theorem compiled_apart a s C fn g g' fuel off l n allocs p r t k : resolve a = Ok s -> plain_names s -> immcgen s = Ok C -> pointers_last s = true -> function_in C fn ->
  connect_basic_blocks (create_basic_blocks fn []) = Ok g -> analyze_register_flow fuel g = Ok g' -> analyze_register_liveness [] g' off = Ok l -> determine_allocation l n = Ok allocs ->
  live fn p r -> live fn p t -> r <> t -> 0 <= k -> nth_error allocs (Z.to_nat r) = Some k -> nth_error allocs (Z.to_nat t) <> Some k.
Proof.
  intros R PN G PL F E1 E2 E3 E4. destruct (program_labels _ _ _ R PN G) as [ND _].
  exact (never_share _ _ _ _ _ _ _ _ _ _ _ _ (program_orderly _ _ _ R PN G PL _ F) (function_labels_distinct _ _ ND F) E1 E2 E3 E4).
Qed.
Theorem compiled_same a s C exts ext C' n seqs k fuel r : resolve a = Ok s -> plain_names s -> immcgen s = Ok C -> pointers_last s = true ->
  allocate_regs n C = Ok (C', seqs) -> irun_program exts ext C k fuel = Ok r -> irun_program exts ext C' k fuel = Ok r.
Proof.
  intros R PN G PL A. destruct (program_labels _ _ _ R PN G) as [ND _]. exact (allocation_preserves _ _ _ _ _ _ _ _ _ A ND (program_orderly _ _ _ R PN G PL)).
Qed.
(** from the source program to the allocated code *)
Theorem compiled_allocated a s C exts ext n C' sq fuel r :
  resolve a = Ok s -> plain_names s -> immcgen s = Ok C -> regular_program s = true -> pointers_last s = true -> allocate_regs n C = Ok (C', sq) ->
  run_program exts ext fuel s = Ok r -> exists k0, forall k, (k0 <= k)%nat -> irun_program exts ext C' k fuel = Ok r.
Proof.
  intros Rs Pl G Rg PL A R. destruct (program_does _ _ _ _ _ _ _ Rs Pl G Rg R) as (k0 & H). exists k0. intros k L. exact (compiled_same _ _ _ _ _ _ _ _ _ _ _ Rs Pl G PL A (H k L)).
Qed.
