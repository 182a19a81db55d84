(** Properties of compiled programs, from the source text *)
From Verif Require Import Base AstModel SrtModel ResolverModel ImmcModel ImmcgenModel ImmcSem ImmcProgram CSem CProgram GenSpec ProgSpec LabelSpec LabelProofs3 ProgProofs2 RegallocModel ElabProofs RegSpec RegProofs RegProofs2 RegProofs3 RegProofs4 RegProofs6 RegProofs7 OrderSpec OrderProofs8 OrderProofs9 FrontModel NameProofs.
Open Scope Z_scope.

Theorem source_does src s C exts ext fuel r : front src = Ok s -> immcgen s = Ok C -> regular_program s = true ->
  run_program exts ext fuel s = Ok r -> exists k0, forall k, (k0 <= k)%nat -> irun_program exts ext C k fuel = Ok r.
Proof. intros F. apply front_inv in F as (a & R & P). exact (program_does a _ _ _ _ _ _ R P). Qed.
Theorem source_orderly src s C : front src = Ok s -> immcgen s = Ok C -> pointers_last s = true -> orderly_program C.
Proof. intros F. apply front_inv in F as (a & R & P). exact (program_orderly a _ _ R P). Qed.
Theorem source_live src s C fn g g' fuel off l p r : front src = Ok s -> immcgen s = Ok C -> pointers_last s = true -> function_in C fn ->
  connect_basic_blocks (create_basic_blocks fn []) = Ok g -> analyze_register_flow fuel g = Ok g' -> analyze_register_liveness [] g' off = Ok l ->
  live fn p r -> exists x, range l r x /\ first_def x < off + Z.of_nat p <= last_use x.
Proof. intros F. apply front_inv in F as (a & R & P). exact (compiled_live a _ _ _ _ _ _ _ _ _ _ R P). Qed.
Theorem source_apart src s C fn g g' fuel off l n allocs p r t k : front src = Ok s -> immcgen s = Ok C -> pointers_last s = true -> function_in C fn ->
  connect_basic_blocks (create_basic_blocks fn []) = Ok g -> analyze_register_flow fuel g = Ok g' -> analyze_register_liveness [] g' off = Ok l -> determine_allocation l n = Ok allocs ->
  live fn p r -> live fn p t -> r <> t -> 0 <= k -> nth_error allocs (Z.to_nat r) = Some k -> nth_error allocs (Z.to_nat t) <> Some k.
Proof. intros F. apply front_inv in F as (a & R & P). exact (compiled_apart a _ _ _ _ _ _ _ _ _ _ _ _ _ _ R P). Qed.
Theorem source_same src s C exts ext C' n seqs k fuel r : front src = Ok s -> immcgen s = Ok C -> pointers_last s = true ->
  allocate_regs n C = Ok (C', seqs) -> irun_program exts ext C k fuel = Ok r -> irun_program exts ext C' k fuel = Ok r.
Proof. intros F. apply front_inv in F as (a & R & P). exact (compiled_same a _ _ _ _ _ _ _ _ _ _ R P). Qed.
Theorem source_allocated src s C exts ext n C' sq fuel r :
  front src = Ok s -> immcgen s = Ok C -> regular_program s = true -> pointers_last s = true -> allocate_regs n C = Ok (C', sq) ->
  run_program exts ext fuel s = Ok r -> exists k0, forall k, (k0 <= k)%nat -> irun_program exts ext C' k fuel = Ok r.
Proof. intros F. apply front_inv in F as (a & R & P). exact (compiled_allocated a _ _ _ _ _ _ _ _ _ R P). Qed.
