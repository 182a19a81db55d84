(** C48 for functions with calls and for whole programs: from the C source to the machine (CSem, CProgram, X64Isa, SimSpec, SimCallSpec, SimProgSpec) *)
From Coq Require Import Lia ZifyBool FMapPositive.
From Verif Require Import Base DriverModel AstModel SrtModel ResolverModel ImmcModel ImmcgenModel RegallocModel X64Model X64Decode X64genModel FrontModel TypeSpec TypeProofs CSem CProgram ImmcSem ImmcProgram ProgSpec OrderSpec CallSpec LabelSpec OpSpec IsaProofs SimSpec SimCallSpec SimCallCheck SimCallCheckProofs SimFrameCheck SimFrameProofs SimProgSpec SimProofs12 SimProofs13 SimProofs14 SimWitness TestFixtures ExprWitness X64Isa.
Local Open Scope Z_scope.

(** C48, source to machine code, for functions that call others.  Let [nm] be the name of a function of the program, and [F] the machine
    code generated for it.  If calls on the machine ([K]) do what calls in C ([cl]) do, and in C the call of the function with the arguments [args]
    takes the memory from [W] to [W'] and returns [value], then the machine, entered at the first instruction of [F] in any state with these arguments and this memory, runs through [F]
    until it returns, with the memory of [W'], [value] in its register, the registers and the rest of the memory of the caller as they were.
    [P] says where static objects and the frame are; [width] gives the sizes of the values that called functions return.
    Missing: code for which the generator is wrong; [modest_function] (SimCallSpec) says which instructions are right. Also functions that save more than one register
    (the code generated for the second one is wrong, C44). *)
Theorem C48_calls_partial : forall src s C n code lives X u nm,
  front src = Ok s -> immcgen s = Ok C -> regular_program s = true -> pointers_last s = true -> few_arguments s ->
  allocate_regs n C = Ok (code, lives) -> x64gen code lives = Ok X -> translation_unit s = Ok u -> modest_function C code nm ->
  exists F size saved body w, x64_function X F /\ function_code F size saved body /\ hd_error F = Some (X64_LABEL X64_LABEL_FUNCTION w nm)
  /\ forall f, In (nm, f) (u_functions u) -> (length saved <= 1)%nat -> forall cl K width P k args W value W' m,
     (forall n a, p_label P n = Some a -> 0 <= a < 2 ^ 64) -> (forall i, p_string P i = p_label P (create_sliteral_label i)) ->
     calls_do cl K width (rget (regs m) RSP - frame_depth size saved) (regions (w_mem W)) (regions (mem m)) -> results_fit C (p_label P) width ->
     argument_room (w_mem W) (mem m) (rget (regs m) RSP - frame_depth size saved) ->
     function_does cl P k f args W value W' -> entered (w_mem W) args (p_frame P) size saved m ->
     exists p m', steps_with K (p_label P) F (0%nat, m) (p, m') /\ returning (p_label P) F p m' /\ returns_with (w_mem W) (w_mem W') value size saved m m'.
Proof. exact source_calls. Qed.
Print Assumptions C48_calls_partial.
(** a function that calls one that is defined elsewhere and returns its argument *)
Definition C48_twice := bytes "int put(int x); int twice(int x) { return put(x) + put(x + 1); }".
Definition C48_put : caller := fun a args W => match args with [(S4, v)] => if a =? 1000 then Ok (v, W) else Err | _ => Err end.
Definition C48_put_machine (p : nat) (a : Z) (m m' : state) : Prop := a = 1000 /\ m' = mkstate (rset (regs m) RAX (rget (regs m) RDI)) None (mem m).
Definition C48_twice_place : places := mkplaces (fun n => if name_eqb n (bytes "put") then Some 1000 else None) (fun _ => None) 4080.
Definition C48_twice_world : world := mkworld (mkmem (PositiveMap.empty _) [(4064, 4080)] 0) 0 [].
Definition C48_twice_entry : state :=
  mkstate (mkregs 11 12 13 14 4088 15 36 3 16 17 18 19 20 21 22 23) None (mkmem (PositiveMap.empty _) [(2048, 8192)] 0).
Example C48_calls_case : exists s C code lives X u f W',
  front C48_twice = Ok s /\ immcgen s = Ok C /\ regular_program s = true /\ pointers_last s = true /\ few_arguments s
  /\ allocate_regs 8 C = Ok (code, lives) /\ x64gen code lives = Ok X /\ translation_unit s = Ok u /\ modest_function C code (bytes "twice") /\ In (bytes "twice", f) (u_functions u)
  /\ (exists F body v, x64_function X F /\ F = X64_LABEL X64_LABEL_FUNCTION v (bytes "twice") :: prologue 16 [BX_REG_ID] ++ body ++ epilogue 16 [BX_REG_ID])
  /\ calls_do C48_put C48_put_machine (fun _ => Some S4) (rget (regs C48_twice_entry) RSP - frame_depth 16 [BX_REG_ID]) (regions (w_mem C48_twice_world)) (regions (mem C48_twice_entry))
  /\ results_fit C (p_label C48_twice_place) (fun _ => Some S4)
  /\ argument_room (w_mem C48_twice_world) (mem C48_twice_entry) (rget (regs C48_twice_entry) RSP - frame_depth 16 [BX_REG_ID])
  /\ function_does C48_put C48_twice_place 100 f [(S4, 3)] C48_twice_world (Some (S4, 7)) W' /\ entered (w_mem C48_twice_world) [(S4, 3)] (p_frame C48_twice_place) 16 [BX_REG_ID] C48_twice_entry.
Proof.
  do 8 eexists. split; [vm_compute; reflexivity |]. split; [vm_compute; reflexivity |]. split; [vm_compute; reflexivity |]. split; [vm_compute; reflexivity |]. split; [repeat split |]. split; [vm_compute; reflexivity |]. split; [vm_compute; reflexivity |]. split; [vm_compute; reflexivity |].
  split; [apply modest_function_ok; vm_compute; reflexivity |]. split; [left; vm_compute; reflexivity |].
  split; [| split; [| split; [| split; [| split]]]].
  - match goal with |- exists F body v, x64_function ?X F /\ _ => exists X, (skipn 6 (firstn (length X - 5) X)), X64_VIS_GLOBAL end. split; [| vm_compute; reflexivity].
    match goal with |- x64_function ?X _ => exists [], [], X64_VIS_GLOBAL, (bytes "twice"), (skipn 1 X) end. split; [vm_compute; reflexivity |]. split; [vm_compute; reflexivity |]. split; [| vm_compute; reflexivity].
    apply Forall_forall. vm_compute. repeat constructor.
  - intros a vs W x W' m E R By Rc Rg Sp Se Ar. unfold C48_put in E. destruct vs as [| [[] v] [|]]; try discriminate E. destruct (Z.eqb_spec a 1000) as [Ea | Ea]; [subst a | discriminate E]. injection E as <- <-. destruct (Ar 0 S4 v eq_refl ltac:(lia)) as (q & Q & V). injection Q as <-. split; [exact Rc |]. intros p.
    exists (mkstate (rset (regs m) RAX (rget (regs m) RDI)) None (mem m)). split; [split; reflexivity |]. split; [intros q I; cbn [regs]; rewrite rget_rset_other; [reflexivity | intros Eq; rewrite <- ?Eq in I; try subst q; cbn in I; intuition congruence] |].
    split; [intros q; cbn [regs]; destruct (reg_dec q RAX) as [-> | N]; [rewrite rget_rset_same; apply R | rewrite rget_rset_other by congruence; apply R] |].
    split; [exact By |]. split; [exact Rg |]. split; [exact Se |]. split; [| reflexivity]. intros z Z. injection Z as <-. cbn [regs]. rewrite rget_rset_same, V, <- V. symmetry. apply low_low.
  - intros d l i z a I Z A. vm_compute in I. repeat (destruct I as [I | I]; [first [discriminate I | injection I as <- <- <-; vm_compute in Z; exact Z] |]). destruct I.
  - change (argument_room (w_mem C48_twice_world) (mem C48_twice_entry) 4048). split; [lia |]. split; [intros j J; split; [lia |]; exists (2048, 8192); split; [now left | cbn [fst snd]; lia] |]. intros a A (_ & r & [<- | []] & I). cbn in *. lia.
  - do 4 eexists. split; [vm_compute; reflexivity |]. split; [vm_compute; reflexivity |]. split; [vm_compute; reflexivity |]. left. reflexivity.
  - constructor.
    + reflexivity.
    + intros []; cbn; lia.
    + intros k z x r E P A. destruct (Z.to_nat k) as [| i] eqn:Ek; [injection E as <- <- | destruct i; discriminate E].
      assert (k = 0) as -> by lia. injection A as <-. reflexivity.
    + split; [| reflexivity]. intros a b (A & r & [<- | []] & I). split; [exact A |]. exists (2048, 8192). split; [now left | cbn in *; lia].
    + intros a A. change (0 <= match PositiveMap.find (cell a) (PositiveMap.empty Z) with Some b => b | None => 0 end < 256). rewrite PositiveMap.gempty. lia.
    + reflexivity.
    + cbn. lia.
    + split; [split; [cbn; lia |]; exists (2048, 8192); split; [now left | cbn; lia] |]. intros j J. destruct j as [| j]; [| cbn in J; lia]. split; [cbn; lia |]; exists (2048, 8192); split; [now left | cbn; lia].
    + intros a A (_ & r & [<- | []] & I). cbn in *. unfold saved_area in A. cbn in A. lia.
Qed.

(** C48 for whole programs.  The functions of a program call each other and functions defined elsewhere.  [program_meaning] (SimProgSpec) gives the meaning of calls in C, nested at most [n] deep, from the
    bodies of the functions; [machine_call] says what happens on the machine: the return address is pushed, the code of the function runs, and it returns to the address that was pushed.
    If functions defined elsewhere do on the machine ([outer]) what they do in C ([ext]), then so do all functions of the program, recursive ones included: from every state with
    the arguments in their registers and the memory of C, the machine comes back with the memory and the value that C prescribes, with the registers and the rest of the memory of the caller as they were.
    The number of steps, the depth of the calls and the size of the stack have no bound; the stack has to have room for the calls, and C objects are not where it is used.
    Missing: code for which the generator is wrong ([modest_function]), and functions that save more than one register. *)
Theorem C48_program_partial : forall src s C n code lives X u, front src = Ok s -> immcgen s = Ok C -> regular_program s = true -> pointers_last s = true -> few_arguments s ->
  allocate_regs n C = Ok (code, lives) -> x64gen code lives = Ok X -> translation_unit s = Ok u -> (forall nm f, In (nm, f) (u_functions u) -> modest_function C code nm) ->
  exists (size : name -> Z) (saved : name -> list xreg),
  (forall nm f, In (nm, f) (u_functions u) -> exists F body w, x64_function X F /\ function_code F (size nm) (saved nm) body /\ hd_error F = Some (X64_LABEL X64_LABEL_FUNCTION w nm))
  /\ ((forall nm f, In (nm, f) (u_functions u) -> size nm < 2 ^ 31 /\ (length (saved nm) <= 1)%nat) ->
     forall lab strings width site ext outer bottom top Rg cl,
     (forall n a, lab n = Some a -> 0 <= a < 2 ^ 64) -> (forall i, strings i = lab (create_sliteral_label i)) -> results_fit C lab width -> (forall F p, 0 <= site F p < 2 ^ 64) ->
     0 <= bottom -> top < 2 ^ 64 -> In (bottom, top) Rg ->
     (forall sp Rc, sp <= top -> free_below Rc bottom sp -> calls_do ext (fun _ => outer) width sp Rc Rg) ->
     program_meaning u lab strings width bottom (fun nm => Z.max 0 (size nm)) (fun nm => frame_depth (size nm) (saved nm)) ext cl ->
     forall n G sp Rc, sp <= top -> free_below Rc bottom sp -> calls_do (cl n sp) (machine_call X lab site outer n G) width sp Rc Rg).
Proof. exact source_program. Qed.
Print Assumptions C48_program_partial.
(** a program of two functions; the stack is between 1024 and 8192 *)
Definition C48_pair := bytes "int f(void) { return 3; } int main(void) { return f() + 1; }".
Definition C48_pair_label (n : name) : option Z := if name_eqb n (bytes "f") then Some 1000 else if name_eqb n (bytes "main") then Some 2000 else None.
Definition C48_pair_calls (n : nat) (sp : Z) : caller := fun a args W =>
  match args with
  | [] => if (a =? 1000) && (1 <=? n)%nat && (1024 + 48 <=? sp - 16) then Ok (3, W) else if (a =? 2000) && (2 <=? n)%nat && (1024 + 48 <=? sp - 32) then Ok (4, W) else Err
  | _ => Err
  end.
Example C48_program_case : exists s C code lives X u,
  front C48_pair = Ok s /\ immcgen s = Ok C /\ regular_program s = true /\ pointers_last s = true /\ few_arguments s
  /\ allocate_regs 8 C = Ok (code, lives) /\ x64gen code lives = Ok X /\ translation_unit s = Ok u /\ length (u_functions u) = 2%nat /\ (forall nm f, In (nm, f) (u_functions u) -> modest_function C code nm)
  /\ (forall nm f, In (nm, f) (u_functions u) -> exists F body v, x64_function X F /\ F = X64_LABEL X64_LABEL_FUNCTION v nm :: prologue 0 [] ++ body ++ epilogue 0 [])
  /\ results_fit C C48_pair_label (fun _ => Some S4)
  /\ (forall sp Rc, sp <= 8192 -> free_below Rc 1024 sp -> calls_do (fun _ _ _ => Err) (fun _ _ _ _ => False) (fun _ => Some S4) sp Rc [(1024, 8192)])
  /\ program_meaning u C48_pair_label (fun _ => None) (fun _ => Some S4) 1024 (fun _ => Z.max 0 0) (fun _ => frame_depth 0 []) (fun _ _ _ => Err) C48_pair_calls
  /\ forall W, C48_pair_calls 2 8000 2000 [] W = Ok (4, W).
Proof.
  do 6 eexists. split; [vm_compute; reflexivity |]. split; [vm_compute; reflexivity |]. split; [vm_compute; reflexivity |]. split; [vm_compute; reflexivity |]. split; [repeat split |]. split; [vm_compute; reflexivity |]. split; [vm_compute; reflexivity |]. split; [vm_compute; reflexivity |]. split; [reflexivity |].
  split; [intros nm f [I | [I | []]]; injection I as <- _; apply modest_function_ok; vm_compute; reflexivity |]. split; [| split; [| split; [| split]]].
  - intros nm f [I | [I | []]]; injection I as <- _.
    + match goal with |- exists F body v, x64_function ?X F /\ _ => exists (skipn 8 X), (skipn 3 (firstn (length (skipn 8 X) - 2) (skipn 8 X))), X64_VIS_GLOBAL end. split; [| vm_compute; reflexivity].
      match goal with |- x64_function ?X _ => exists (firstn 8 X), [], X64_VIS_GLOBAL, (bytes "main"), (skipn 9 X) end. split; [vm_compute; reflexivity |]. split; [vm_compute; reflexivity |]. split; [| vm_compute; reflexivity]. apply Forall_forall. vm_compute. repeat constructor.
    + match goal with |- exists F body v, x64_function ?X F /\ _ => exists (firstn 8 X), (skipn 3 (firstn 6 X)), X64_VIS_GLOBAL end. split; [| vm_compute; reflexivity].
      match goal with |- x64_function ?X _ => exists [], (skipn 8 X), X64_VIS_GLOBAL, (bytes "f"), (skipn 1 (firstn 8 X)) end. split; [vm_compute; reflexivity |]. split; [vm_compute; reflexivity |]. split; [| vm_compute; reflexivity]. apply Forall_forall. vm_compute. repeat constructor.
  - intros d l i z a I Z A. vm_compute in I. repeat (destruct I as [I | I]; [first [discriminate I | injection I as <- <- <-; vm_compute in Z; exact Z] |]). destruct I.
  - intros sp Rc _ _ a vs W x W' m E. discriminate E.
  - intros n sp a args W x W' E. right. unfold C48_pair_calls in E. destruct args; [| discriminate E]. destruct ((a =? 1000) && (1 <=? n)%nat && (1024 + 48 <=? sp - 16)) eqn:B1; [| destruct ((a =? 2000) && (2 <=? n)%nat && (1024 + 48 <=? sp - 32)) eqn:B2; [| discriminate E]]; injection E as <- <-.
    + destruct n as [| n]; [lia |]. exists n. split; [reflexivity |]. exists (bytes "f"). eexists. assert (a = 1000) as -> by lia. split; [reflexivity |]. split; [right; left; reflexivity |]. split; [cbn; lia |]. split; [reflexivity |].
      intros M (Rg & Pk). exists 50%nat, (Some (S4, 3)), (set_wmem W M). split; [do 4 eexists; split; [vm_compute; reflexivity |]; split; [reflexivity |]; split; [vm_compute; reflexivity | left; reflexivity] |].
      split; [exact Pk |]. split; [reflexivity |]. split; [reflexivity |]. intros z Z. injection Z as <-. exists 3. split; reflexivity.
    + destruct n as [| [| n]]; [lia | lia |]. exists (S n). split; [reflexivity |]. exists (bytes "main"). eexists. assert (a = 2000) as -> by lia. split; [reflexivity |]. split; [left; reflexivity |]. split; [cbn; lia |]. split; [reflexivity |].
      intros M (Rg & Pk). exists 50%nat, (Some (S4, 4)), (set_wmem W M). split.
      { assert (Ca : C48_pair_calls (S n) (sp - 8 - frame_depth 0 []) 1000 [] (set_wmem W M) = Ok (3, set_wmem W M)) by (unfold C48_pair_calls; change (frame_depth 0 []) with 8; replace (1024 + 48 <=? sp - 8 - 8 - 16) with true by lia; reflexivity).
        revert Ca. generalize (C48_pair_calls (S n) (sp - 8 - frame_depth 0 [])). intros c Ca. do 4 eexists. split; [vm_compute; reflexivity |]. split; [reflexivity |]. split; [| left; reflexivity]. revert Ca. generalize (set_wmem W M). intros W1 Ca. cbv -[low interp fit Z.add Z.sub Z.modulo Z.pow]. rewrite Ca. vm_compute. reflexivity. }
      split; [exact Pk |]. split; [reflexivity |]. split; [reflexivity |]. intros z Z. injection Z as <-. exists 4. split; reflexivity.
  - reflexivity.
Qed.
(** a recursive program: [sum(v)] is [v * (v + 1) / 2] for [v] up to 1000, and [main] returns 55 *)
Example C48_recursion_case : exists s C code lives X u,
  front C48_sum = Ok s /\ immcgen s = Ok C /\ regular_program s = true /\ pointers_last s = true /\ few_arguments s
  /\ allocate_regs 8 C = Ok (code, lives) /\ x64gen code lives = Ok X /\ translation_unit s = Ok u /\ List.map fst (u_functions u) = [bytes "main"; bytes "sum"] /\ (forall nm f, In (nm, f) (u_functions u) -> modest_function C code nm)
  /\ (forall nm f, In (nm, f) (u_functions u) -> exists F body v, x64_function X F /\ F = X64_LABEL X64_LABEL_FUNCTION v nm :: prologue (C48_sum_size nm) (C48_sum_saved nm) ++ body ++ epilogue (C48_sum_size nm) (C48_sum_saved nm))
  /\ results_fit C C48_sum_label (fun _ => Some S4)
  /\ program_meaning u C48_sum_label (fun _ => None) (fun _ => Some S4) 1024 (fun nm => Z.max 0 (C48_sum_size nm)) (fun nm => frame_depth (C48_sum_size nm) (C48_sum_saved nm)) (fun _ _ _ => Err) C48_sum_calls
  /\ forall v W, regions (w_mem W) = [] -> 0 <= v <= 1000 -> C48_sum_calls 1001 65536 1000 [(S4, v)] W = Ok (v * (v + 1) / 2, W).
Proof.
  destruct sum_program as (s & u & Es & Eu & Me). assert (Es' := Es). vm_compute in Es'. injection Es' as Es'. assert (Eu' := Eu). rewrite <- Es' in Eu'. vm_compute in Eu'. injection Eu' as Eu'. rewrite <- Es' in Es, Eu. rewrite <- Eu' in Eu, Me. clear Es' Eu'.
  do 6 eexists. split; [exact Es |]. split; [vm_compute; reflexivity |]. split; [vm_compute; reflexivity |]. split; [vm_compute; reflexivity |]. split; [repeat split |]. split; [vm_compute; reflexivity |]. split; [vm_compute; reflexivity |]. split; [exact Eu |]. split; [reflexivity |].
  split; [intros nm f [I | [I | []]]; injection I as <- _; apply modest_function_ok; vm_compute; reflexivity |]. split; [| split; [| split; [exact Me |]]].
  - intros nm f [I | [I | []]]; injection I as <- _.
    + match goal with |- exists F body v, x64_function ?X F /\ _ => exists (skipn 32 X), (skipn 3 (firstn (length (skipn 32 X) - 2) (skipn 32 X))), X64_VIS_GLOBAL end. split; [| vm_compute; reflexivity].
      match goal with |- x64_function ?X _ => exists (firstn 32 X), [], X64_VIS_GLOBAL, (bytes "main"), (skipn 33 X) end. split; [vm_compute; reflexivity |]. split; [vm_compute; reflexivity |]. split; [| vm_compute; reflexivity]. apply Forall_forall. vm_compute. repeat constructor.
    + match goal with |- exists F body v, x64_function ?X F /\ _ => exists (firstn 32 X), (skipn 6 (firstn 27 X)), X64_VIS_GLOBAL end. split; [| vm_compute; reflexivity].
      match goal with |- x64_function ?X _ => exists [], (skipn 32 X), X64_VIS_GLOBAL, (bytes "sum"), (skipn 1 (firstn 32 X)) end. split; [vm_compute; reflexivity |]. split; [vm_compute; reflexivity |]. split; [| vm_compute; reflexivity]. apply Forall_forall. vm_compute. repeat constructor.
  - intros d l i z a I Z A. vm_compute in I. repeat (destruct I as [I | I]; [first [discriminate I | injection I as <- <- <-; vm_compute in Z; exact Z] |]). destruct I.
  - intros v W R V. unfold C48_sum_calls. rewrite R. change (forallb _ _ && _) with true. cbv iota. replace ((1000 =? 1000) && (0 <=? v) && (v <=? 1000) && (v <? Z.of_nat 1001) && (1024 + 48 <=? 65536 - 48 * (v + 1))) with true by lia. reflexivity.
Qed.
(** end-to-end tests of the compiler all functions of which meet the conditions; [_mergesort] and [_quicksort] are recursive *)
Definition C48_tests : list (list Z) :=
  [src_arithmetic; src_assignment; src_bitwise; src_char; src_comparison; src_compstmt; src_enum; src_exprstmt; src_for; src_globalvar; src_ifelse; src_initializer; src_int; src_pointer; src_struct; src_void; src_while; src_x_mergesort; src_x_quicksort].
Example C48_program_tests : Forall (fun src => exists s C code lives X u, front src = Ok s /\ immcgen s = Ok C /\ regular_program s = true /\ pointers_last s = true /\ few_arguments s
  /\ allocate_regs 8 C = Ok (code, lives) /\ x64gen code lives = Ok X /\ translation_unit s = Ok u /\ (forall nm f, In (nm, f) (u_functions u) -> modest_function C code nm)
  /\ forall F size saved body, x64_function X F -> function_code F size saved body -> size < 2 ^ 31 /\ (length saved <= 1)%nat) C48_tests.
Proof.
  assert (H : forallb (fun src => match front src with Ok s => match immcgen s with Ok C => match allocate_regs 8 C with Ok (code, lives) => match x64gen code lives with Ok X => match translation_unit s with Ok u =>
    regular_program s && pointers_last s && few_argumentsb s && small_frames X && forallb (modest_functionb C code) (List.map fst (u_functions u)) | _ => false end | _ => false end | _ => false end | _ => false end | _ => false end) C48_tests = true) by (vm_compute; reflexivity).
  rewrite forallb_forall in H. apply Forall_forall. intros src I. specialize (H src I). destruct (front src) as [s | | | |]; try discriminate H. destruct (immcgen s) as [C | | | |] eqn:E1; try discriminate H. destruct (allocate_regs 8 C) as [[code lives] | | | |] eqn:E2; try discriminate H.
  destruct (x64gen code lives) as [X | | | |] eqn:E3; try discriminate H. destruct (translation_unit s) as [u | | | |] eqn:E4; try discriminate H. apply andb_prop in H as (H & H5). apply andb_prop in H as (H & H4). apply andb_prop in H as (H & H3). apply andb_prop in H as (H1 & H2). apply few_arguments_ok in H3. exists s, C, code, lives, X, u. rewrite forallb_forall in H5. repeat (split; [assumption || reflexivity |]).
  split; [| exact (small_frames_ok X H4)]. intros nm f J. apply modest_function_ok. apply H5. exact (in_map fst _ _ J).
Qed.

(** C48: the code of a function runs in one way only, if calls do.  When a run from [a] ends in a return, every state that can be reached from [a] leads there.
    Missing: that calls of other functions ([K], and [machine_call] in particular) have one result only; it is assumed. *)
Theorem C48_one_run_partial : forall src s C n code lives X F (K : nat -> Z -> state -> state -> Prop) e,
  front src = Ok s -> immcgen s = Ok C -> allocate_regs n C = Ok (code, lives) -> x64gen code lives = Ok X -> x64_function X F ->
  (forall p a m m1 m2, K p a m m1 -> K p a m m2 -> m1 = m2) ->
  forall a b p m, steps_with K e F a (p, m) -> returning e F p m -> steps_with K e F a b -> steps_with K e F b (p, m).
Proof. exact source_unique. Qed.
Print Assumptions C48_one_run_partial.
(** the same without calls *)
Theorem C48_one_own_run_partial : forall src s C n code lives X F e,
  front src = Ok s -> immcgen s = Ok C -> allocate_regs n C = Ok (code, lives) -> x64gen code lives = Ok X -> x64_function X F ->
  forall a b p m, own_steps e F a (p, m) -> returning e F p m -> own_steps e F a b -> own_steps e F b (p, m).
Proof. exact source_own_unique. Qed.
Print Assumptions C48_one_own_run_partial.
(** both functions of the program with [f] and [main] *)
Definition C48_pair_machine (p : nat) (a : Z) (m m' : state) : Prop := a = 1000 /\ m' = mkstate (rset (regs m) RAX 3) None (mem m).
Example C48_one_run_case : exists s C code lives X F F' p m p' m',
  front C48_pair = Ok s /\ immcgen s = Ok C /\ allocate_regs 8 C = Ok (code, lives) /\ x64gen code lives = Ok X
  /\ x64_function X F /\ own_steps C48_pair_label F (0%nat, C48_twice_entry) (p, m) /\ returning C48_pair_label F p m /\ rget (regs m) RAX = 3
  /\ x64_function X F' /\ (forall p a m m1 m2, C48_pair_machine p a m m1 -> C48_pair_machine p a m m2 -> m1 = m2)
  /\ steps_with C48_pair_machine C48_pair_label F' (0%nat, C48_twice_entry) (p', m') /\ returning C48_pair_label F' p' m' /\ rget (regs m') RAX = 4.
Proof.
  do 11 eexists. split; [vm_compute; reflexivity |]. split; [vm_compute; reflexivity |]. split; [vm_compute; reflexivity |]. split; [vm_compute; reflexivity |].
  split; [match goal with |- x64_function ?X ?F => let f := eval vm_compute in (firstn 8 X) in unify F f; exists [], (skipn 8 X), X64_VIS_GLOBAL, (bytes "f"), (skipn 1 (firstn 8 X)) end; split; [vm_compute; reflexivity |]; split; [vm_compute; reflexivity |]; split; [| vm_compute; reflexivity]; apply Forall_forall; vm_compute; repeat constructor |].
  split. { eapply own_more; [eapply own_label; vm_compute; reflexivity |]. do 3 (eapply own_more; [eapply own_next; [vm_compute; reflexivity | vm_compute; reflexivity | vm_compute; reflexivity] |]). eapply own_more; [eapply own_jump; [vm_compute; reflexivity | vm_compute; reflexivity | vm_compute; reflexivity | match goal with |- nth_error _ ?q = _ => unify q 5%nat end; reflexivity] |]. eapply own_more; [eapply own_label; vm_compute; reflexivity |]. eapply own_more; [eapply own_next; [vm_compute; reflexivity | vm_compute; reflexivity | vm_compute; reflexivity] |]. apply own_refl. }
  split; [do 4 eexists; split; [vm_compute; reflexivity |]; split; [vm_compute; reflexivity |]; vm_compute; reflexivity |]. split; [vm_compute; reflexivity |].
  split; [match goal with |- x64_function ?X ?F => let f := eval vm_compute in (skipn 8 X) in unify F f; exists (firstn 8 X), [], X64_VIS_GLOBAL, (bytes "main"), (skipn 9 X) end; split; [vm_compute; reflexivity |]; split; [vm_compute; reflexivity |]; split; [| vm_compute; reflexivity]; apply Forall_forall; vm_compute; repeat constructor |].
  split; [intros p a m m1 m2 (_ & ->) (_ & ->); reflexivity |].
  split. { eapply with_more; [apply with_own; eapply own_label; vm_compute; reflexivity |]. do 3 (eapply with_more; [apply with_own; eapply own_next; [vm_compute; reflexivity | vm_compute; reflexivity | vm_compute; reflexivity] |]). eapply with_more; [eapply with_call; [vm_compute; reflexivity | vm_compute; reflexivity | vm_compute; reflexivity | vm_compute; reflexivity | split; reflexivity] |].
    do 3 (eapply with_more; [apply with_own; eapply own_next; [vm_compute; reflexivity | vm_compute; reflexivity | vm_compute; reflexivity] |]). eapply with_more; [apply with_own; eapply own_jump; [vm_compute; reflexivity | vm_compute; reflexivity | vm_compute; reflexivity | match goal with |- nth_error _ ?q = _ => unify q 9%nat end; reflexivity] |]. eapply with_more; [apply with_own; eapply own_label; vm_compute; reflexivity |]. eapply with_more; [apply with_own; eapply own_next; [vm_compute; reflexivity | vm_compute; reflexivity | vm_compute; reflexivity] |]. apply with_refl. }
  split; [do 4 eexists; split; [vm_compute; reflexivity |]; split; [vm_compute; reflexivity |]; vm_compute; reflexivity |]. vm_compute; reflexivity.
Qed.
