(** C34, C44 and C45: calls, registers kept across calls, and the stack (CallSpec) *)
From Coq Require Import Lia.
From Verif Require Import Base DriverModel AstModel ParserModel SrtModel ResolverModel ImmcModel ImmcgenModel RegallocModel X64Model X64Decode X64genModel OpSpec IsaProofs IsaMemProofs LabelSpec LabelProofs2 FrontModel RegSpec OrderSpec MarkSpec MarkProofs5 SourceProofs2 CSem CProgram TestC TestLib Machine CallSpec CallProofs7 CallProofs10 CallWitness X64Isa.
Local Open Scope Z_scope.

(** C34, in the caller: if the arguments [vs] have been computed and pushed from the last to the first ([pushed], CallSpec), then the code of the call
    instruction reaches the machine call with argument [j] where the calling convention expects it ([passed]): the first six in registers, the others on the stack.
    That all arguments are evaluated is part of C30 and C48. Missing: that the code between two pushes keeps the stack is a hypothesis (in [pushed]); see C45 for the stack pointer. *)
Theorem C34_arguments_passed_partial : forall dst f s i st cs st' e m0 m vs,
  pushed e vs m0 m -> 8 * Z.of_nat (length vs) <= rget (regs m0) RSP < 2 ^ 64 ->
  gen_inst_x64code (IMMC_INST IMMC_INST_CALL dst (Some f) (Some (IMMC_OPERAND_INT s i))) st = Ok (cs, st') ->
  count_of (Some (IMMC_OPERAND_INT s i)) = Z.of_nat (length vs) ->
  match dst with Some d => is_register d /\ operand_size d <> None | None => True end ->
  (forall q, 0 <= rget (regs m) q < 2 ^ 64) -> byte_memory (mem m) ->
  exists pre c post m1 i1, cs = pre ++ c :: post /\ runs e pre m (Next m1) /\ insns [c] = Some [i1]
    /\ match f with
       | IMMC_OPERAND_LABEL l => exec e i1 m1 = Calls l m1
       | IMMC_OPERAND_PTR r => exists q, machine_reg (reg_id r) = Some q /\ exec e i1 m1 = Calls_at (rget (regs m) q) m1
       | _ => False
       end
    /\ rget (regs m1) RSP = rget (regs m0) RSP - 8 * Z.max 0 (Z.of_nat (length vs) - 6)
    /\ (forall j z v, nth_error vs j = Some (z, v) -> passed m1 (Z.of_nat j) z v).
Proof. exact arguments_passed. Qed.
Print Assumptions C34_arguments_passed_partial.
Definition C34_number (v : Z) : ope := new_signed_int_immcope IMMC_SUFFIX_LONG IInt v.
Definition C34_st : xst := mkxst [] 0.
Lemma stack_kept_refl m : stack_kept m m.
Proof. split; [reflexivity |]. split; auto. Qed.
Definition C34_push (v : Z) (m : state) : state := match exec no_labels (Push (Imm v)) m with Next m' => m' | _ => m end.
Definition C34_m : state := C34_push 10 (C34_push 11 (C34_push 12 (C34_push 13 (C34_push 14 (C34_push 15 (C34_push 16 start)))))).
Lemma C34_push_ok v vs m m1 : pushed no_labels vs m m1 -> imm_fits S8 v = true -> lit_value (new_signed IInt v) = v -> wraps 32 v = v -> exec no_labels (Push (Imm v)) m1 = Next (C34_push v m1) ->
  pushed no_labels ((S4, v) :: vs) m (C34_push v m1).
Proof.
  intros P F L W X. eapply (pushed_one _ (C34_number v) _ _ _ C34_st); [exact P | reflexivity | exact Logic.I | cbn [encodable C34_number new_signed_int_immcope]; now rewrite L | reflexivity | unfold value, C34_number, new_signed_int_immcope; now rewrite L | | apply stack_kept_refl].
  assert (L2 := L). cbn in L2. cbn in F. exists [Push (Imm v)]. split; [cbn; rewrite ?L2; now rewrite ?F | cbn [exec_list]; now rewrite X].
Qed.
Example C34_case : exists cs st' n, pushed no_labels [(S4, 10); (S4, 11); (S4, 12); (S4, 13); (S4, 14); (S4, 15); (S4, 16)] start C34_m
  /\ 8 * 7 <= rget (regs start) RSP < 2 ^ 64 /\ n = new_signed_int_immcope IMMC_SUFFIX_LONG IInt 7 /\ count_of (Some n) = 7
  /\ gen_inst_x64code (IMMC_INST IMMC_INST_CALL (Some (new_signed_reg_immcope IMMC_SUFFIX_LONG 0)) (Some (IMMC_OPERAND_LABEL (bytes "f"))) (Some n)) C34_st = Ok (cs, st')
  /\ forall q, 0 <= rget (regs C34_m) q < 2 ^ 64.
Proof.
  do 3 eexists. split; [| split; [vm_compute; split; congruence |]; split; [reflexivity |]; split; [reflexivity |]; split; [vm_compute; reflexivity |]].
  - do 7 (apply C34_push_ok; [| reflexivity | reflexivity | reflexivity | vm_compute; reflexivity]). apply pushed_none, stack_kept_refl.
  - intros []; vm_compute; split; congruence.
Qed.

(** C34, entering the callee: the arguments are still there, and where the callee looks for them, after the return address has been pushed and the prologue has run. *)
Theorem C34_arguments_entered_partial : forall e m1 ra m2 size saved m3 k z v,
  passed m1 k z v -> push ra m1 = Some m2 -> runs e (prologue size saved) m2 (Next m3) ->
  8 + frame_depth size saved <= rget (regs m1) RSP < 2 ^ 64 -> rget (regs m1) RSP + 8 * (k - 6) < 2 ^ 64 -> ~ In SP_REG_ID saved ->
  argument_in m3 k z (low z v).
Proof. exact arguments_entered. Qed.
Print Assumptions C34_arguments_entered_partial.
Example C34_entered_case : exists m2 m3, passed (after_call calls_only 21) 6 S4 7 /\ passed (after_call calls_only 21) 1 S4 2 /\ push 0 (after_call calls_only 21) = Some m2 /\ runs no_labels (prologue 32 []) m2 (Next m3)
  /\ 8 + frame_depth 32 [] <= rget (regs (after_call calls_only 21)) RSP < 2 ^ 64.
Proof.
  do 2 eexists. split.
  2: split.
  2: vm_compute; reflexivity.
  2: split.
  2: vm_compute; reflexivity.
  2: split.
  2: eexists; split.
  2: vm_compute; reflexivity.
  2: vm_compute; reflexivity.
  2: vm_compute; split; congruence.
  split; [vm_compute; congruence |]. split; [apply (proj1 (valid_accessible _ _ 8)); vm_compute; reflexivity |]. exists 7. split; [| reflexivity].
  split; [vm_compute; split; congruence |]. intros i I. assert (C : i = 0 \/ i = 1 \/ i = 2 \/ i = 3 \/ i = 4 \/ i = 5 \/ i = 6 \/ i = 7) by lia. destruct C as [-> | [-> | [-> | [-> | [-> | [-> | [-> | ->]]]]]]]; vm_compute; reflexivity.
Qed.

(** C34, in the callee: the code that reads the parameters ([load_parameter], one for each) leaves argument [j] in the slot of parameter [j].
    The slots are disjoint by C22. Argument numbers 6 and above are read relative to the frame pointer and must not wrap around the address space. *)
Theorem C34_parameters_read_partial : forall e,
  forall ps st cs st' m, generated (List.map load_parameter ps) st cs st' -> byte_memory (mem m) -> 0 <= rget (regs m) RBP < 2 ^ 64 ->
  (forall p, In p ps -> exists z, in_frame m p z) -> ForallOrdPairs apart ps ->
  forall vs, length vs = length ps -> (forall j p z v, nth_error ps j = Some p -> nth_error vs j = Some v -> suffix_size (p_suffix p) = Some z -> argument_in m (reg_id (p_register p)) z v /\ (argument_reg (reg_id (p_register p)) = None -> rget (regs m) RBP + 16 + 8 * (reg_id (p_register p) - 6) + 8 < 2 ^ 64)) ->
  exists m', runs e cs m (Next m') /\ (forall q, q <> R10 -> rget (regs m') q = rget (regs m) q)
    /\ forall j p z v, nth_error ps j = Some p -> nth_error vs j = Some v -> suffix_size (p_suffix p) = Some z -> holds (mem m') (rget (regs m) RBP - p_offset p) (size_bytes z) (low z v).
Proof. exact parameters_read. Qed.
Print Assumptions C34_parameters_read_partial.
Definition C34_parameters : list parameter := [mkparam 4 IMMC_SUFFIX_LONG (mkireg 0 false); mkparam 8 IMMC_SUFFIX_LONG (mkireg 1 false)].
Definition C34_entry : state := mkstate (rset (rset (rset (regs start) RBP 4080) RDI 7) RSI 8) None (X64Isa.mem start).
Example C34_parameters_case : exists cs st', generated (List.map load_parameter C34_parameters) C34_st cs st' /\ (forall p, In p C34_parameters -> exists z, in_frame C34_entry p z) /\ ForallOrdPairs apart C34_parameters
  /\ argument_in C34_entry 0 S4 7 /\ argument_in C34_entry 1 S4 8.
Proof.
  do 2 eexists. split; [eapply generated_cons; [vm_compute; reflexivity |]; eapply generated_cons; [vm_compute; reflexivity |]; apply generated_nil |].
  split; [intros p [<- | [<- | []]]; exists S4; (split; [reflexivity |]; split; [vm_compute; split; congruence |]; split; [vm_compute; congruence |]; exists (0, 8192); split; [now left | vm_compute; split; congruence]) |].
  split; [constructor; [constructor; [| constructor] | constructor; constructor]; intros y z Y Z; injection Y as <-; injection Z as <-; left; vm_compute; congruence |].
  split; vm_compute; reflexivity.
Qed.

(** C44.  Around a call instruction of the compiler: whatever the callee does to the registers that it may change, after the call every register that is live has the value it had before.
    Missing: the frame pointer, if two or more registers are live, for which it is false (below). *)
Theorem C44_call_partial : forall dst f s i st cs st' e m vs,
  gen_inst_x64code (IMMC_INST IMMC_INST_CALL dst (Some f) (Some (IMMC_OPERAND_INT s i))) st = Ok (cs, st') ->
  count_of (Some (IMMC_OPERAND_INT s i)) = Z.of_nat (length vs) ->
  match dst with Some d => is_register d /\ operand_size d <> None | None => True end ->
  (forall q, 0 <= rget (regs m) q < 2 ^ 64) -> byte_memory (mem m) -> rget (regs m) RSP + 8 * Z.of_nat (length vs) < 2 ^ 64 ->
  (forall j v, nth_error vs j = Some v -> accessible (mem m) (rget (regs m) RSP + 8 * Z.of_nat j) 8 /\ holds (mem m) (rget (regs m) RSP + 8 * Z.of_nat j) 8 v) ->
  exists pre c post m1 i1, cs = pre ++ c :: post /\ runs e pre m (Next m1) /\ insns [c] = Some [i1]
    /\ match f with
       | IMMC_OPERAND_LABEL l => exec e i1 m1 = Calls l m1
       | IMMC_OPERAND_PTR r => exists q, machine_reg (reg_id r) = Some q /\ exec e i1 m1 = Calls_at (rget (regs m) q) m1
       | _ => False
       end
    /\ mem m1 = mem m /\ rget (regs m1) RSP = rget (regs m) RSP + 8 * Z.min 6 (Z.of_nat (length vs)) /\ rget (regs m1) RAX = 0
    /\ (forall j v q, nth_error vs j = Some v -> argument_reg (Z.of_nat j) = Some q -> rget (regs m1) q = v)
    /\ forall m2, returned m1 m2 -> exists m3, runs e post m2 (Next m3) /\ mem m3 = mem m2 /\ rget (regs m3) RSP = rget (regs m1) RSP
       /\ (forall k q, live_after st k -> dst_id dst <> Some (Z.of_nat k) -> machine_reg (Z.of_nat k) = Some q -> rget (regs m3) q = rget (regs m) q)
       /\ (forall d z q, dst = Some d -> operand_size d = Some z -> operand_reg d = Some q -> low z (rget (regs m3) q) = low z (rget (regs m2) RAX))
       /\ (forall q, In q callee_saved -> q <> RSP -> ~ In q (List.map reg_of (firstn (Z.to_nat (x_evac st')) CALLEE_SAVED_REG_IDS)) -> rget (regs m3) q = rget (regs m) q)
       /\ ((forall k k', live_after st k -> live_after st k' -> dst_id dst <> Some (Z.of_nat k) -> dst_id dst <> Some (Z.of_nat k') -> k = k') -> rget (regs m3) RBP = rget (regs m) RBP).
Proof. exact call_correct. Qed.
Print Assumptions C44_call_partial.
Definition C44_st : xst := mkxst [mkls [mklv 1 9] 5 0] 0.
Example C44_call_case : exists cs st' n, live_after C44_st 0 /\ n = new_signed_int_immcope IMMC_SUFFIX_LONG IInt 0 /\ count_of (Some n) = 0
  /\ gen_inst_x64code (IMMC_INST IMMC_INST_CALL (Some (new_signed_reg_immcope IMMC_SUFFIX_LONG 1)) (Some (IMMC_OPERAND_LABEL (bytes "f"))) (Some n)) C44_st = Ok (cs, st') /\ x_evac st' = 1.
Proof. do 3 eexists. split; [eexists; split; reflexivity |]. split; [reflexivity |]. split; [reflexivity |]. split; [vm_compute; reflexivity |]. reflexivity. Qed.

(** C44, C36.  The whole chain from the source text to the code generator. When the code of instruction [p] of a function is generated, every register of the function that is live
    after [p] and not written by it ([live], RegSpec) is known to be live ([live_after]), has a machine register of its own, and the instruction writes its result elsewhere.
    Missing: programs with pointers chosen by a conditional expression and then read through (as for C36). *)
Theorem C44_marked_partial : forall src s C n code lives X A fn B,
  front src = Ok s -> immcgen s = Ok C -> pointers_last s = true -> allocate_regs n C = Ok (code, lives) -> x64gen code lives = Ok X -> C = A ++ fn ++ B -> is_function fn B ->
  exists place, (forall p c, nth_error fn p = Some c -> nth_error code (length A + p) = Some (renamed place c))
  /\ forall p t d f g, nth_error fn p = Some (IMMC_INST t d f g) -> exists X1 cs X2 st st', X = X1 ++ cs ++ X2 /\ gen_inst_x64code (renamed place (IMMC_INST t d f g)) st = Ok (cs, st')
  /\ forall r, live fn (S p) r -> goes_on (IMMC_INST t d f g) = true -> writes (IMMC_INST t d f g) <> Some r ->
     live_after st (Z.to_nat (place r)) /\ 0 <= place r < Z.of_nat n /\ forall w, writes (IMMC_INST t d f g) = Some w -> 0 <= w -> place w <> place r.
Proof. exact source_marked. Qed.
Print Assumptions C44_marked_partial.
Definition C44_source : list Z := bytes "int f(int x) { return x; } int main(void) { return 1 + f(2); }".
Definition C44_code : list immc := match front C44_source with Ok s => match immcgen s with Ok c => c | _ => [] end | _ => [] end.
Definition C44_main : list immc := skipn 8 C44_code.
(** [main] of that program is a function, instruction 5 of it is the call, and register 0, which has the left operand, is live after it *)
Example C44_marked_case : exists s code lives X w a n, front C44_source = Ok s /\ immcgen s = Ok C44_code /\ pointers_last s = true
  /\ allocate_regs (Z.to_nat NUM_CALLER_SAVED_REGS) C44_code = Ok (code, lives) /\ x64gen code lives = Ok X /\ C44_code = firstn 8 C44_code ++ C44_main ++ [] /\ is_function C44_main []
  /\ nth_error C44_main 5 = Some (IMMC_INST IMMC_INST_CALL (Some (IMMC_OPERAND_REG IMMC_SUFFIX_LONG w)) (Some (IMMC_OPERAND_LABEL a)) (Some (IMMC_OPERAND_INT IMMC_SUFFIX_NONE n)))
  /\ reg_id w = 1 /\ live C44_main 6 0.
Proof.
  do 7 eexists. split; [vm_compute; reflexivity |]. split; [vm_compute; reflexivity |]. split; [vm_compute; reflexivity |]. split; [vm_compute; reflexivity |]. split; [vm_compute; reflexivity |].
  split; [vm_compute; reflexivity |]. split.
  { split; [| discriminate]. do 3 eexists. split; [vm_compute; reflexivity |]. vm_compute. repeat constructor. }
  split; [vm_compute; reflexivity |]. split; [reflexivity |].
  eapply live_later with (q := 7%nat); [vm_compute; reflexivity | discriminate | |].
  - eexists. split; [vm_compute; reflexivity |]. left. split; reflexivity.
  - eapply live_read; [vm_compute; reflexivity |]. vm_compute. now left.
Qed.

(** C44 for compiled programs.  At a call in a function of a compiled program: the arguments on the stack get into the argument registers, the callee is called, and when it
    has returned ([returned], CallSpec), every register of the function that is live after the call is in the machine register chosen for it, with the value it had before the call; the result is in its own register.
    Missing: as for [C44_marked_partial]; the frame pointer (below); the execution between the calls. *)
Theorem C44_compiled_partial : forall src s C code lives X A fn B,
  front src = Ok s -> immcgen s = Ok C -> pointers_last s = true -> allocate_regs (Z.to_nat NUM_CALLER_SAVED_REGS) C = Ok (code, lives) -> x64gen code lives = Ok X -> C = A ++ fn ++ B -> is_function fn B ->
  exists place, (forall p c, nth_error fn p = Some c -> nth_error code (length A + p) = Some (renamed place c))
  /\ forall p dst f z i, nth_error fn p = Some (IMMC_INST IMMC_INST_CALL dst (Some f) (Some (IMMC_OPERAND_INT z i))) ->
     match dst with Some (IMMC_OPERAND_REG w r) => 0 <= reg_id r /\ suffix_size w <> None | Some _ => False | None => True end ->
     exists X1 cs X2, X = X1 ++ cs ++ X2
     /\ forall e m vs, count_of (Some (IMMC_OPERAND_INT z i)) = Z.of_nat (length vs) ->
        (forall q, 0 <= rget (regs m) q < 2 ^ 64) -> byte_memory (mem m) -> rget (regs m) RSP + 8 * Z.of_nat (length vs) < 2 ^ 64 ->
        (forall j v, nth_error vs j = Some v -> accessible (mem m) (rget (regs m) RSP + 8 * Z.of_nat j) 8 /\ holds (mem m) (rget (regs m) RSP + 8 * Z.of_nat j) 8 v) ->
        exists pre c post m1 i1, cs = pre ++ c :: post /\ runs e pre m (Next m1) /\ insns [c] = Some [i1]
        /\ match f with
           | IMMC_OPERAND_LABEL l => exec e i1 m1 = Calls l m1
           | IMMC_OPERAND_PTR r => exists q, machine_reg (place (reg_id r)) = Some q /\ exec e i1 m1 = Calls_at (rget (regs m) q) m1
           | _ => False
           end
        /\ mem m1 = mem m /\ (forall j v q, nth_error vs j = Some v -> argument_reg (Z.of_nat j) = Some q -> rget (regs m1) q = v)
        /\ forall m2, returned m1 m2 -> exists m3, runs e post m2 (Next m3) /\ mem m3 = mem m2
           /\ (forall r, live fn (S p) r -> match dst with Some (IMMC_OPERAND_REG _ d) => reg_id d <> r | _ => True end ->
                exists q, machine_reg (place r) = Some q /\ rget (regs m3) q = rget (regs m) q)
           /\ (forall w d k q, dst = Some (IMMC_OPERAND_REG w d) -> suffix_size w = Some k -> machine_reg (place (reg_id d)) = Some q -> low k (rget (regs m3) q) = low k (rget (regs m2) RAX)).
Proof. exact source_call. Qed.
Print Assumptions C44_compiled_partial.

(** C44.  Every compiled function returns with the callee-saved registers as at entry, if it does not overwrite the memory in which it saved them.
    Missing: that it does not, for programs that stay within their objects. *)
Theorem C44_restored_partial : forall src s cs code lives X F,
  front src = Ok s -> immcgen s = Ok cs -> few_arguments s ->
  allocate_regs (Z.to_nat NUM_CALLER_SAVED_REGS) cs = Ok (code, lives) -> x64gen code lives = Ok X -> x64_function X F ->
  exists size saved body, function_code F size saved body
  /\ forall e m0 p m, (forall q, 0 <= rget (regs m0) q < 2 ^ 64) -> frame_depth size saved <= rget (regs m0) RSP < 2 ^ 64 - 8 -> steps e F (0%nat, m0) (p, m) -> returning e F p m ->
  let entry := S (length (prologue size saved)) in
  exists m1 m2, runs e (prologue size saved) m0 (Next m1) /\ steps e F (entry, m1) ((entry + length body)%nat, m2)
    /\ ((forall a, saved_area (rget (regs m0) RSP) size saved a -> peek (mem m2) a = peek (mem m1) a) -> forall q, In q callee_saved -> rget (regs m) q = rget (regs m0) q).
Proof. exact source_restores. Qed.
Print Assumptions C44_restored_partial.

(** C44 for all functions: during the call in [second_evacuation] the frame pointer is not the frame pointer; the program does not run *)
Theorem C44_frame_refuted : ~ frame_kept.
Proof. exact frame_lost. Qed.
Print Assumptions C44_frame_refuted.
Theorem C44_program_refuted : c_run 1000 second_evacuation = Ok (6, []) /\ run_source 1000 second_evacuation = Ok Wrong.
Proof. exact second_evacuation_wrong. Qed.
Print Assumptions C44_program_refuted.

(** C45.  Every compiled function returns with the stack pointer it had at entry. Missing: more than 2^31 arguments. *)
Theorem C45_returns_partial : forall src s cs code lives X F e m0 p m,
  front src = Ok s -> immcgen s = Ok cs -> few_arguments s ->
  allocate_regs (Z.to_nat NUM_CALLER_SAVED_REGS) cs = Ok (code, lives) -> x64gen code lives = Ok X ->
  x64_function X F -> 0 <= rget (regs m0) RSP < 2 ^ 64 -> steps e F (0%nat, m0) (p, m) -> returning e F p m -> rget (regs m) RSP = rget (regs m0) RSP.
Proof. exact source_returns. Qed.
Print Assumptions C45_returns_partial.

Fixpoint few_argumentsb (s : srt) : bool :=
  let 'Srt t _ _ cs := s in forallb few_argumentsb cs && match t, cs with SRT_CALL_EXPR, [_; Srt _ _ _ args] => Z.of_nat (length args) <? 2 ^ 31 | _, _ => true end.
Fixpoint no_callb (s : srt) : bool := let 'Srt t _ _ cs := s in match t with SRT_CALL_EXPR => false | _ => true end && forallb no_callb cs.
Fixpoint no_nested_callb (s : srt) : bool := let 'Srt t _ _ cs := s in match t with SRT_CALL_EXPR => forallb no_callb cs | _ => forallb no_nested_callb cs end.
Lemma all_of (P : srt -> Prop) (b : srt -> bool) (l : list srt) : Forall (fun s => b s = true -> P s) l -> forallb b l = true -> fold_right and True (List.map P l).
Proof. induction l as [| a l IH]; intros F H; [exact Logic.I |]. cbn in H. apply andb_prop in H as (H1 & H2). inversion F; subst. split; auto. Qed.
Lemma few_argumentsb_ok : forall s, few_argumentsb s = true -> few_arguments s.
Proof.
  apply (srt_induction (fun s => few_argumentsb s = true -> few_arguments s)). intros t d p cs IH H. cbn in H. apply andb_prop in H as (H1 & H2). split; [exact (all_of _ _ _ IH H1) |].
  destruct t; try exact Logic.I. destruct cs as [| f [| [t' d' p' args] [|]]]; try exact Logic.I. apply Z.ltb_lt, H2.
Qed.
Lemma no_callb_ok : forall s, no_callb s = true -> no_call s.
Proof.
  apply (srt_induction (fun s => no_callb s = true -> no_call s)). intros t d p cs IH H. cbn in H. apply andb_prop in H as (H1 & H2). split; [intros ->; discriminate H1 | exact (all_of _ _ _ IH H2)].
Qed.
Lemma no_nested_callb_ok : forall s, no_nested_callb s = true -> no_nested_call s.
Proof.
  apply (srt_induction (fun s => no_nested_callb s = true -> no_nested_call s)). intros t d p cs IH H. cbn in H |- *.
  destruct t; try exact (all_of _ _ _ IH H). refine (all_of _ _ _ _ H). apply Forall_forall. intros s _. apply no_callb_ok.
Qed.
(** all hypotheses hold of [main] in the program [calls_only]: it calls [f] with 7 arguments, then [g] twice, and returns *)
Example C45_case : exists s cs code lives X, front calls_only = Ok s /\ immcgen s = Ok cs /\ few_arguments s /\ no_nested_call s
  /\ allocate_regs (Z.to_nat NUM_CALLER_SAVED_REGS) cs = Ok (code, lives) /\ x64gen code lives = Ok X /\ x64_function X (main_of calls_only)
  /\ rget (regs start) RSP mod 16 = 8 /\ (forall q, 0 <= rget (regs start) q < 2 ^ 64)
  /\ (forall n, In n [21; 29; 36]%nat -> steps no_labels (main_of calls_only) (0%nat, start) (place_after calls_only n, after_call calls_only n) /\ calling no_labels (main_of calls_only) (place_after calls_only n) (after_call calls_only n))
  /\ steps no_labels (main_of calls_only) (0%nat, start) (place_after calls_only 47, after_call calls_only 47) /\ returning no_labels (main_of calls_only) (place_after calls_only 47) (after_call calls_only 47).
Proof.
  assert (W : forall n, walk no_labels (main_of calls_only) n 0 start <> None -> steps no_labels (main_of calls_only) (0%nat, start) (place_after calls_only n, after_call calls_only n)).
  { intros n H. apply (walk_steps _ _ n). unfold place_after, after_call. destruct (walk _ _ n 0 start) as [[p m] |]; [reflexivity | now contradiction H]. }
  do 5 eexists. split; [vm_compute; reflexivity |]. split; [vm_compute; reflexivity |].
  split; [apply few_argumentsb_ok; vm_compute; reflexivity |]. split; [apply no_nested_callb_ok; vm_compute; reflexivity |]. split; [vm_compute; reflexivity |]. split; [vm_compute; reflexivity |].
  split; [eapply (find_function_ok (bytes "main")); vm_compute; reflexivity |]. split; [reflexivity |]. split; [intros []; vm_compute; split; congruence |]. split.
  - intros n I. repeat (destruct I as [<- | I]; [split; [apply W; vm_compute; discriminate |]; do 4 eexists; split; [vm_compute; reflexivity |]; split; [vm_compute; reflexivity |]; left; eexists; vm_compute; reflexivity |]). destruct I.
  - split; [apply W; vm_compute; discriminate |]. do 4 eexists. split; [vm_compute; reflexivity |]. split; [vm_compute; reflexivity |]. vm_compute. reflexivity.
Qed.

(** C45.  If calls among the arguments of other calls are made when an even number of words is on the stack ([evenly]), then the stack pointer is a multiple of 16 at every call,
    given that it is at the call of the function itself. Missing: the other programs, for which it is false (below). *)
Theorem C45_aligned_partial : forall src s cs code lives X F e m0 p m,
  front src = Ok s -> immcgen s = Ok cs -> few_arguments s -> evenly false s ->
  allocate_regs (Z.to_nat NUM_CALLER_SAVED_REGS) cs = Ok (code, lives) -> x64gen code lives = Ok X ->
  x64_function X F -> 0 <= rget (regs m0) RSP < 2 ^ 64 -> rget (regs m0) RSP mod 16 = 8 -> steps e F (0%nat, m0) (p, m) -> calling e F p m -> rget (regs m) RSP mod 16 = 0.
Proof. exact source_aligned. Qed.
Print Assumptions C45_aligned_partial.

(** In particular, if there are no calls among the arguments of calls *)
Theorem C45_not_nested : forall s, no_nested_call s -> evenly false s.
Proof. exact no_nested_evenly. Qed.
Print Assumptions C45_not_nested.

(** C45 for all programs: [nested_call] *)
Theorem C45_aligned_refuted : ~ stack_aligned.
Proof. exact nested_misaligned. Qed.
Print Assumptions C45_aligned_refuted.
