(** Proofs for C44: a compiled function finds the values it still needs after a call *)
From Verif Require Import Base ElabProofs SrtModel ImmcModel ImmcgenModel LabelProofs2 RegallocModel X64Model X64Decode X64genModel OpSpec IsaProofs IsaMemProofs X64genProofs X64genProofs2 X64genProofs5 LabelSpec CallSpec CallProofs3 CallProofs2 CallProofs5 CallProofs6 ResolverModel CallProofs7 CallProofs8 CallProofs9 X64Isa CallProofs10 FrontModel RegSpec OrderSpec MarkSpec MarkProofs4 NameProofs NameProofs.
From Verif Require Import X64Isa.
Local Open Scope Z_scope.

Theorem source_marked src s C n code lives X A fn B : front src = Ok s -> immcgen s = Ok C -> pointers_last s = true -> allocate_regs n C = Ok (code, lives) -> x64gen code lives = Ok X -> C = A ++ fn ++ B -> is_function fn B ->
  exists place, (forall p c, nth_error fn p = Some c -> nth_error code (length A + p) = Some (renamed place c))
  /\ forall p t d f g, nth_error fn p = Some (IMMC_INST t d f g) -> exists X1 cs X2 st st', X = X1 ++ cs ++ X2 /\ gen_inst_x64code (renamed place (IMMC_INST t d f g)) st = Ok (cs, st')
  /\ forall r, live fn (S p) r -> goes_on (IMMC_INST t d f g) = true -> writes (IMMC_INST t d f g) <> Some r ->
     live_after st (Z.to_nat (place r)) /\ 0 <= place r < Z.of_nat n /\ forall w, writes (IMMC_INST t d f g) = Some w -> 0 <= w -> place w <> place r.
Proof. intros F0. apply front_inv in F0 as (a & R & P). exact (@compiled_marked a _ _ _ _ _ _ _ _ _ R P). Qed.
Theorem source_call src s C code lives X A fn B : front src = Ok s -> immcgen s = Ok C -> pointers_last s = true -> allocate_regs (Z.to_nat NUM_CALLER_SAVED_REGS) C = Ok (code, lives) -> x64gen code lives = Ok X -> C = A ++ fn ++ B -> is_function fn B ->
  exists place, (forall p c, nth_error fn p = Some c -> nth_error code (length A + p) = Some (renamed place c))
  /\ forall p dst f z i, nth_error fn p = Some (IMMC_INST IMMC_INST_CALL dst (Some f) (Some (IMMC_OPERAND_INT z i))) ->
     match dst with Some (IMMC_OPERAND_REG w r) => 0 <= reg_id r /\ suffix_size w <> None | Some _ => False | None => True end ->
     exists X1 cs X2, X = X1 ++ cs ++ X2
     /\ forall e m vs, count_of (Some (IMMC_OPERAND_INT z i)) = Z.of_nat (length vs) ->
        (forall q, 0 <= rget (regs m) q < 2 ^ 64) -> byte_memory (mem m) -> rget (regs m) RSP + 8 * Z.of_nat (length vs) < 2 ^ 64 ->
        (forall j v, nth_error vs j = Some v -> accessible (mem m) (rget (regs m) RSP + 8 * Z.of_nat j) 8 /\ holds (mem m) (rget (regs m) RSP + 8 * Z.of_nat j) 8 v) ->
        exists pre c post m1 i1, cs = pre ++ c :: post /\ runs e pre m (Next m1) /\ insns [c] = Some [i1]
        /\ match f with
           | IMMC_OPERAND_LABEL l => exec e i1 m1 = Calls l m1
           | IMMC_OPERAND_PTR r => exists q, machine_reg (place (reg_id r)) = Some q /\ exec e i1 m1 = Calls_at (rget (regs m) q) m1
           | _ => False
           end
        /\ mem m1 = mem m /\ (forall j v q, nth_error vs j = Some v -> argument_reg (Z.of_nat j) = Some q -> rget (regs m1) q = v)
        /\ forall m2, returned m1 m2 -> exists m3, runs e post m2 (Next m3) /\ mem m3 = mem m2
           /\ (forall r, live fn (S p) r -> match dst with Some (IMMC_OPERAND_REG _ d) => reg_id d <> r | _ => True end ->
                exists q, machine_reg (place r) = Some q /\ rget (regs m3) q = rget (regs m) q)
           /\ (forall w d k q, dst = Some (IMMC_OPERAND_REG w d) -> suffix_size w = Some k -> machine_reg (place (reg_id d)) = Some q -> low k (rget (regs m3) q) = low k (rget (regs m2) RAX)).
Proof.
  intros F0 G PL AL XG EC Fn. destruct (source_marked _ _ _ _ _ _ _ _ _ _ F0 G PL AL XG EC Fn) as (place & Here & M). exists place. split; [exact Here |]. intros p dst f z i E D.
  destruct (M _ _ _ _ _ E) as (X1 & cs & X2 & st & st' & EX & Gi & Lv). exists X1, cs, X2. split; [exact EX |]. intros e m vs Cn Bd By Sp Ar. cbn [renamed] in Gi.
  assert (F' : exists f', renamed_operand place (Some f) = Some f') by (destruct f; eexists; reflexivity). destruct F' as (f' & Ef). rewrite Ef in Gi. change (renamed_operand place (Some (IMMC_OPERAND_INT z i))) with (Some (IMMC_OPERAND_INT z i)) in Gi.
  destruct (call_correct _ _ _ _ _ _ _ e m vs Gi Cn) as (pre & c & post & m1 & i1 & E1 & E2 & E3 & E4 & E5 & _ & _ & E8 & E9); auto.
  { destruct dst as [[] |]; try destruct D; cbn; auto. }
  exists pre, c, post, m1, i1. split; [exact E1 |]. split; [exact E2 |]. split; [exact E3 |]. split; [destruct f; injection Ef as <-; exact E4 |]. split; [exact E5 |]. split; [exact E8 |].
  intros m2 Rt. destruct (E9 m2 Rt) as (m3 & R1 & R2 & _ & R4 & R5 & _). exists m3. split; [exact R1 |]. split; [exact R2 |]. split.
  - intros r L N. destruct (Lv r L eq_refl) as (La & Pr & Pw); [destruct dst as [[] |]; cbn; congruence |]. assert (Q : exists q, machine_reg (place r) = Some q).
    { change (Z.of_nat (Z.to_nat NUM_CALLER_SAVED_REGS)) with 8 in Pr. clear -Pr. assert (K : place r = 0 \/ place r = 1 \/ place r = 2 \/ place r = 3 \/ place r = 4 \/ place r = 5 \/ place r = 6 \/ place r = 7) by lia.
      destruct K as [-> | [-> | [-> | [-> | [-> | [-> | [-> | ->]]]]]]]; eexists; reflexivity. }
    destruct Q as (q & Q). exists q. split; [exact Q |]. apply (R4 (Z.to_nat (place r)) q La); rewrite Z2Nat.id by lia; [| exact Q].
    destruct dst as [[] |]; try destruct D; cbn; try discriminate. intros K. injection K as K. eapply Pw; [reflexivity | assumption | exact K].
  - intros w d k q -> Sw Mq. exact (R5 _ k q eq_refl Sw Mq).
Qed.
