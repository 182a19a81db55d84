(** Calls in compiled programs, from the source text *)
From Verif Require Import Base ElabProofs SrtModel ImmcModel ImmcgenModel LabelProofs2 RegallocModel X64Model X64Decode X64genModel OpSpec IsaProofs IsaMemProofs X64genProofs X64genProofs2 X64genProofs5 LabelSpec CallSpec CallProofs3 CallProofs2 CallProofs5 CallProofs6 ResolverModel CallProofs7 CallProofs8 CallProofs9 X64Isa CallProofs10 FrontModel NameProofs X64Isa.
Local Open Scope Z_scope.

Theorem source_restores src s cs code lives X F : front src = Ok s -> immcgen s = Ok cs -> few_arguments s ->
  allocate_regs (Z.to_nat NUM_CALLER_SAVED_REGS) cs = Ok (code, lives) -> x64gen code lives = Ok X -> x64_function X F ->
  exists size saved body, function_code F size saved body
  /\ forall e m0 p m, (forall q, 0 <= rget (regs m0) q < 2 ^ 64) -> frame_depth size saved <= rget (regs m0) RSP < 2 ^ 64 - 8 -> steps e F (0%nat, m0) (p, m) -> returning e F p m ->
  let entry := S (length (prologue size saved)) in
  exists m1 m2, runs e (prologue size saved) m0 (Next m1) /\ steps e F (entry, m1) ((entry + length body)%nat, m2)
    /\ ((forall a, saved_area (rget (regs m0) RSP) size saved a -> peek (mem m2) a = peek (mem m1) a) -> forall q, In q callee_saved -> rget (regs m) q = rget (regs m0) q).
Proof. intros F0. apply front_inv in F0 as (a & R & P). exact (@program_restores a _ _ _ _ _ _ R P). Qed.
Theorem source_aligned src s cs code lives X F e m0 p m : front src = Ok s -> immcgen s = Ok cs -> few_arguments s -> evenly false s ->
  allocate_regs (Z.to_nat NUM_CALLER_SAVED_REGS) cs = Ok (code, lives) -> x64gen code lives = Ok X ->
  x64_function X F -> 0 <= rget (regs m0) RSP < 2 ^ 64 -> rget (regs m0) RSP mod 16 = 8 -> steps e F (0%nat, m0) (p, m) -> calling e F p m -> rget (regs m) RSP mod 16 = 0.
Proof. intros F0. apply front_inv in F0 as (a & R & P). exact (@program_aligned a _ _ _ _ _ _ _ _ _ _ R P). Qed.
Theorem source_returns src s cs code lives X F e m0 p m : front src = Ok s -> immcgen s = Ok cs -> few_arguments s ->
  allocate_regs (Z.to_nat NUM_CALLER_SAVED_REGS) cs = Ok (code, lives) -> x64gen code lives = Ok X ->
  x64_function X F -> 0 <= rget (regs m0) RSP < 2 ^ 64 -> steps e F (0%nat, m0) (p, m) -> returning e F p m -> rget (regs m) RSP = rget (regs m0) RSP.
Proof. intros F0. apply front_inv in F0 as (a & R & P). exact (@program_returns a _ _ _ _ _ _ _ _ _ _ R P). Qed.
