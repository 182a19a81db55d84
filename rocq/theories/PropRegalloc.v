(** C35 to C38: live ranges, register allocation, the flow analysis and register pressure (RegSpec) *)
From Verif Require Import Base LexerModel ParserModel DriverModel SetModel ISetProofs AstModel SrtModel ResolverModel ImmcModel ImmcgenModel ImmcSem ImmcProgram CSem CProgram GenSpec ProgSpec LabelSpec RegallocModel RegSpec RegProofs RegProofs2 RegProofs3 RegProofs4 RegProofs6 RegProofs7 RegCheck RegCheckProofs OrderSpec OrderProofs8 OrderProofs9 FrontModel SourceProofs ProgWitness RegWitness TestLib TestFixtures TestC.
Local Open Scope Z_scope.

(** C35.  A register that is written before point [p] of a function in the order of the text, and read later on some path from [p] before it is
    written again ([live], RegSpec), has a live range that contains [p]. Paths may go round loops. The function must end in an instruction, not a label.
    Missing: loops closed by JLT or JLEQ that carry a register, for which it is false (below); the compiler closes its loops by JMP, and no register is live there. *)
Theorem C35_liveness_partial : forall fn g g' fuel off l p r,
  NoDup (labels fn) -> ends_in_label fn = false -> ((forall c, In c fn -> less_jump c = false) \/ fresh_loops fn) ->
  connect_basic_blocks (create_basic_blocks fn []) = Ok g -> analyze_register_flow fuel g = Ok g' -> analyze_register_liveness [] g' off = Ok l ->
  live fn p r -> (exists q c, (q < p)%nat /\ nth_error fn q = Some c /\ writes c = Some r) -> exists x, range l r x /\ first_def x < off + Z.of_nat p <= last_use x.
Proof. exact liveness_contains. Qed.
Print Assumptions C35_liveness_partial.
Example C35_case : exists g g' l, NoDup (labels unequal_loop) /\ ends_in_label unequal_loop = false /\ (forall c, In c unequal_loop -> less_jump c = false)
  /\ connect_basic_blocks (create_basic_blocks unequal_loop []) = Ok g /\ analyze_register_flow 4 g = Ok g' /\ analyze_register_liveness [] g' 0 = Ok l /\ live unequal_loop 9 0
  /\ (exists q c, (q < 9)%nat /\ nth_error unequal_loop q = Some c /\ writes c = Some 0).
Proof.
  do 3 eexists. split; [exact nodup_unequal |]. split; [reflexivity |]. split; [intros c I; repeat (destruct I as [<- | I]; [reflexivity |]); destruct I |]. split; [vm_compute; reflexivity |]. split; [vm_compute; reflexivity |]. split; [vm_compute; reflexivity |]. split; [exact unequal_loop_live |].
  exists 2%nat. eexists. split; [lia |]. split; reflexivity.
Qed.

(** C35 for the functions of a compiled program. [pointers_last] (OrderSpec): no pointer that is read or written through is the value of a conditional, of
    unary plus, or of an assignment that does not go to a variable. Missing: those, for which the generator reads another register than the one that holds the pointer. *)
Theorem C35_compiled_partial : forall src s C fn g g' fuel off l p r,
  front src = Ok s -> immcgen s = Ok C -> pointers_last s = true -> function_in C fn ->
  connect_basic_blocks (create_basic_blocks fn []) = Ok g -> analyze_register_flow fuel g = Ok g' -> analyze_register_liveness [] g' off = Ok l ->
  live fn p r -> exists x, range l r x /\ first_def x < off + Z.of_nat p <= last_use x.
Proof. exact source_live. Qed.
Print Assumptions C35_compiled_partial.
Definition loop_source : list Z := bytes "int main(void) { int i = 3; while (i) i = i - 1; return i; } ".
Example C35_compiled_case : exists s C g g' l p r, front loop_source = Ok s /\ immcgen s = Ok C /\ pointers_last s = true /\ function_in C C
  /\ connect_basic_blocks (create_basic_blocks C []) = Ok g /\ analyze_register_flow 4 g = Ok g' /\ analyze_register_liveness [] g' 0 = Ok l /\ live C p r.
Proof.
  do 7 eexists. split; [vm_compute; reflexivity |]. split; [vm_compute; reflexivity |]. split; [vm_compute; reflexivity |].
  split; [exists [], []; split; [rewrite app_nil_r; reflexivity |]; split; [do 3 eexists; split; [reflexivity |]; repeat constructor | discriminate] |].
  split; [vm_compute; reflexivity |]. split; [vm_compute; reflexivity |]. split; [vm_compute; reflexivity |]. eapply (live_read _ 8); [reflexivity | now left].
Qed.

(** C35 for all functions: the analysis does not know that JLT and JLEQ jump *)
Theorem C35_liveness_refuted : ~ liveness_right.
Proof. exact liveness_refuted. Qed.
Print Assumptions C35_liveness_refuted.

(** C36.  In orderly code (RegSpec) two registers live at the same point do not share a machine register.  *)
Theorem C36_no_clash_partial : forall fn g g' fuel off l n allocs p r s k,
  orderly fn -> NoDup (labels fn) ->
  connect_basic_blocks (create_basic_blocks fn []) = Ok g -> analyze_register_flow fuel g = Ok g' -> analyze_register_liveness [] g' off = Ok l -> determine_allocation l n = Ok allocs ->
  live fn p r -> live fn p s -> r <> s -> 0 <= k -> nth_error allocs (Z.to_nat r) = Some k -> nth_error allocs (Z.to_nat s) <> Some k.
Proof. exact never_share. Qed.
Print Assumptions C36_no_clash_partial.

(** C36.  The allocated code of a program gives the same result as the code before allocation. Missing: code that is not orderly, for which it is false (below).
    [check_program] decides whether code is orderly; all functions of the end-to-end tests are. *)
Theorem C36_same_result_partial : forall exts ext C C' n seqs k fuel r,
  allocate_regs n C = Ok (C', seqs) -> NoDup (labels C) -> orderly_program C -> irun_program exts ext C k fuel = Ok r -> irun_program exts ext C' k fuel = Ok r.
Proof. exact allocation_preserves. Qed.
Print Assumptions C36_same_result_partial.
Example C36_case : exists s C C' sq r, front src_x_quicksort = Ok s /\ immcgen s = Ok C /\ check_program C = true /\ allocate_regs 8 C = Ok (C', sq) /\ C <> C'
  /\ irun_program testlib_names c_testlib C (Z.to_nat 100000) 1000 = Ok r /\ irun_program testlib_names c_testlib C' (Z.to_nat 100000) 1000 = Ok r.
Proof. do 5 eexists. split; [vm_compute; reflexivity |]. split; [vm_compute; reflexivity |]. split; [vm_compute; reflexivity |]. split; [vm_compute; reflexivity |]. split; [discriminate |]. split; vm_compute; reflexivity. Qed.
Example C36_fixtures : forallb (fun src => match front src with Ok s => match immcgen s with Ok C => check_program C | _ => false end | _ => false end)
  [src_arithmetic; src_array; src_assignment; src_bitwise; src_char; src_comparison; src_compstmt; src_condition; src_enum; src_exprstmt; src_for; src_functioncall; src_functiondef; src_functionptr; src_globalvar;
   src_ifelse; src_incdec; src_initializer; src_int; src_logical; src_pointer; src_stringliteral; src_struct; src_switch; src_typedef; src_void; src_while; src_x_linkedlist; src_x_mergesort; src_x_quicksort] = true.
Proof. vm_compute. reflexivity. Qed.

(** C36 for the functions of a compiled program. Missing: programs that are not [pointers_last] (C35). *)
Theorem C36_compiled_no_clash_partial : forall src s C fn g g' fuel off l n allocs p r t k,
  front src = Ok s -> immcgen s = Ok C -> pointers_last s = true -> function_in C fn ->
  connect_basic_blocks (create_basic_blocks fn []) = Ok g -> analyze_register_flow fuel g = Ok g' -> analyze_register_liveness [] g' off = Ok l -> determine_allocation l n = Ok allocs ->
  live fn p r -> live fn p t -> r <> t -> 0 <= k -> nth_error allocs (Z.to_nat r) = Some k -> nth_error allocs (Z.to_nat t) <> Some k.
Proof. exact source_apart. Qed.
Print Assumptions C36_compiled_no_clash_partial.

(** C36.  Register allocation does not change the result of a compiled program. *)
Theorem C36_compiled_same_result_partial : forall src s C exts ext C' n seqs k fuel r,
  front src = Ok s -> immcgen s = Ok C -> pointers_last s = true ->
  allocate_regs n C = Ok (C', seqs) -> irun_program exts ext C k fuel = Ok r -> irun_program exts ext C' k fuel = Ok r.
Proof. exact source_same. Qed.
Print Assumptions C36_compiled_same_result_partial.
Example C36_compiled_fixtures : forallb (fun src => match front src with Ok s => pointers_last s | _ => false end)
  [src_arithmetic; src_array; src_assignment; src_bitwise; src_char; src_comparison; src_compstmt; src_condition; src_enum; src_exprstmt; src_for; src_functioncall; src_functiondef; src_functionptr; src_globalvar;
   src_ifelse; src_incdec; src_initializer; src_int; src_logical; src_pointer; src_stringliteral; src_struct; src_switch; src_typedef; src_void; src_while; src_x_linkedlist; src_x_mergesort; src_x_quicksort] = true.
Proof. vm_compute. reflexivity. Qed.

(** The code of a compiled program is orderly. *)
Theorem C36_compiled_orderly : forall src s C,
  front src = Ok s -> immcgen s = Ok C -> pointers_last s = true -> orderly_program C.
Proof. exact source_orderly. Qed.
Print Assumptions C36_compiled_orderly.

(** The check of orderly code is right *)
Theorem C36_check : forall C,
  check_program C = true -> orderly_program C.
Proof. exact check_program_ok. Qed.
Print Assumptions C36_check.

(** C36 for all code: see [less_loop], which returns 6, and 8 after allocation *)
Theorem C36_same_result_refuted : ~ allocation_right.
Proof. exact allocation_refuted. Qed.
Print Assumptions C36_same_result_refuted.

(** C37.  If no block has a successor before it or itself, the analysis ends in at most two rounds, in sets that satisfy the flow equations ([settled]).
    [good_graph]: the sets are well formed. The graphs the compiler builds start with empty inputs. *)
Theorem C37_forward_partial : forall g,
  good_graph g -> targets_exist g -> (forall i b, nth_error g i = Some b -> set_items (b_in b) = []) -> (forall i b j, nth_error g i = Some b -> imem (b_succ b) j -> Z.of_nat i < j) -> exists g', analyze_register_flow 2 g = Ok g' /\ forall i b, nth_error g' i = Some b -> settled g' b.
Proof. exact forward_settles. Qed.
Print Assumptions C37_forward_partial.
Example C37_case : exists g, connect_basic_blocks (create_basic_blocks forward_code []) = Ok g
  /\ length g = 3%nat /\ good_graph g /\ targets_exist g /\ (forall i b, nth_error g i = Some b -> set_items (b_in b) = []) /\ (forall i b j, nth_error g i = Some b -> imem (b_succ b) j -> Z.of_nat i < j).
Proof.
  eexists. split; [vm_compute; reflexivity |]. split; [reflexivity |].
  assert (G : forall g, connect_basic_blocks (create_basic_blocks forward_code []) = Ok g -> good_graph g).
  { intros g E. apply (proj2 (connect_code _ _ (tail_of forward_code eq_refl) E)). }
  split; [apply G; vm_compute; reflexivity |]. clear G. split; [| split].
  - intros i b j B J. do 3 (destruct i as [| i]; [injection B as <-; vm_compute in J; cbn; intuition lia |]). destruct i; discriminate B.
  - intros i b B. do 3 (destruct i as [| i]; [injection B as <-; reflexivity |]). destruct i; discriminate B.
  - intros i b j B J. do 3 (destruct i as [| i]; [injection B as <-; vm_compute in J; cbn; intuition lia |]). destruct i; discriminate B.
Qed.

(** C37.  The same if there are loops but no register goes round them. *)
Theorem C37_loops_partial : forall g g1 c,
  good_graph g -> targets_exist g -> (forall i b, nth_error g i = Some b -> set_items (b_in b) = []) -> flow_round (length g) g true = Ok (g1, c) -> empty_heads g1 -> analyze_register_flow 2 g = Ok g1.
Proof. exact settles_in_two. Qed.
Print Assumptions C37_loops_partial.

(** C37.  Whenever the analysis ends, the sets satisfy the flow equations. *)
Theorem C37_fixed_point_partial : forall fuel g g', analyze_register_flow fuel g = Ok g' -> good_graph g -> good_graph g' /\ skeleton g g' /\ forall i b, nth_error g' i = Some b -> settled g' b.
Proof. exact flow_ok. Qed.
Print Assumptions C37_fixed_point_partial.

(** C37 for all graphs: the analysis of [swinging] goes on for ever, because removing from a set may leave a copy of the element *)
Theorem C37_terminates_refuted : ~ flow_terminates_always.
Proof. exact flow_refuted. Qed.
Print Assumptions C37_terminates_refuted.

(** C38.  If, where a register is first written, fewer than [n] of those with lower numbers are still in use, the function is allocated. Missing: the other functions (below). *)
Theorem C38_low_pressure_partial : forall n fn off seqs g g' l,
  NoDup (LabelSpec.labels fn) -> ends_in_label fn = false -> (forall c r, In c fn -> writes c = Some r -> 0 <= r) -> length seqs = n ->
  connect_basic_blocks (create_basic_blocks fn []) = Ok g -> analyze_register_flow (flow_fuel fn g) g = Ok g' -> analyze_register_liveness [] g' off = Ok l -> low_pressure l n ->
  exists cs seqs', allocate_function n fn off seqs = Ok (cs, seqs').
Proof. exact function_allocates. Qed.
Print Assumptions C38_low_pressure_partial.
Example C38_case : exists g g' l, NoDup (labels unequal_loop) /\ ends_in_label unequal_loop = false /\ connect_basic_blocks (create_basic_blocks unequal_loop []) = Ok g /\ analyze_register_flow (flow_fuel unequal_loop g) g = Ok g' /\ analyze_register_liveness [] g' 0 = Ok l
  /\ low_pressure l 8 /\ length l = 5%nat.
Proof. do 3 eexists. split; [exact nodup_unequal |]. split; [reflexivity |]. split; [vm_compute; reflexivity |]. split; [vm_compute; reflexivity |]. split; [vm_compute; reflexivity |]. split; [apply few_registers; cbn; lia | reflexivity]. Qed.

(** C38.  If a function is allocated, every register in its code is one of the [n] machine registers. *)
Theorem C38_machine_registers_partial : forall n fn off seqs cs seqs',
  allocate_function n fn off seqs = Ok (cs, seqs') -> forall c r, In c cs -> In r (reads c) \/ writes c = Some r -> 0 <= r < Z.of_nat n.
Proof. exact function_registers. Qed.
Print Assumptions C38_machine_registers_partial.

(** C38 for all programs: [deep_sum] is a correct program, and the allocator reads out of bounds *)
Theorem C38_pressure_refuted : ~ pressure_handled.
Proof. exact pressure_refuted. Qed.
Print Assumptions C38_pressure_refuted.
Theorem C38_division_refuted : miscompiled deep_division 40 42.
Proof. exact division_miscompiled. Qed.
Print Assumptions C38_division_refuted.

(** C48, as far as register allocation: the allocated code does what the source program does in C. *)
Theorem C48_allocated_code_partial : forall src s C exts ext n C' sq fuel r,
  front src = Ok s -> immcgen s = Ok C -> regular_program s = true -> pointers_last s = true -> allocate_regs n C = Ok (C', sq) ->
  run_program exts ext fuel s = Ok r -> exists k0, forall k, (k0 <= k)%nat -> irun_program exts ext C' k fuel = Ok r.
Proof. exact source_allocated. Qed.
Print Assumptions C48_allocated_code_partial.
Example C48_allocated_case : exists s C C' sq r, front src_x_mergesort = Ok s /\ immcgen s = Ok C /\ regular_program s = true /\ pointers_last s = true /\ allocate_regs 8 C = Ok (C', sq) /\ run_program testlib_names c_testlib 1000 s = Ok r /\ irun_program testlib_names c_testlib C' (Z.to_nat 100000) 1000 = Ok r.
Proof. do 5 eexists. repeat (split; [vm_compute; reflexivity |]). vm_compute. reflexivity. Qed.
