(** C48 for functions without calls: from the C source to the machine (CSem, CProgram, X64Isa, SimSpec) *)
From Coq Require Import Lia FMapPositive.
From Verif Require Import Base DriverModel AstModel SrtModel ResolverModel ImmcModel ImmcgenModel RegallocModel X64Model X64Decode X64genModel FrontModel TypeSpec CSem CProgram ImmcSem ImmcProgram ProgSpec OrderSpec CallSpec LabelSpec OpSpec SimSpec SimCheck SimCheckProofs SimProofs8 TestFixtures ExprWitness X64Isa.
Local Open Scope Z_scope.

(** C48, source to machine code, for functions that call no others.  Let [f] be a function of the program, [nm] its name, and [F] the machine
    code generated for it.  If in C the call of [f] with the arguments [args] takes the memory from [W] to [W'] and returns [value], then the
    machine, entered at the first instruction of [F] in any state with these arguments and this memory, runs through [F] until it returns, with the
    memory of [W'], [value] in its register, the registers and the rest of the memory of the caller as they were ([entered], [left]: SimSpec).
    There is no bound on the number of steps.
    [cl] is what calls would do; [P] says where static objects and the frame are.
    Functions with calls are in PropWhole. Missing: code for which the generator is wrong; [leaf_function] (SimSpec) says which instructions are right. *)
Theorem C48_machine_code_partial : forall src s C n code lives X u nm f,
  front src = Ok s -> immcgen s = Ok C -> regular_program s = true -> pointers_last s = true -> few_arguments s ->
  allocate_regs n C = Ok (code, lives) -> x64gen code lives = Ok X -> translation_unit s = Ok u -> In (nm, f) (u_functions u) -> leaf_function C code nm ->
  exists F size saved body w, x64_function X F /\ function_code F size saved body /\ hd_error F = Some (X64_LABEL X64_LABEL_FUNCTION w nm)
  /\ forall cl P k args W value W' m,
     (forall n a, p_label P n = Some a -> 0 <= a < 2 ^ 64) -> (forall i, p_string P i = p_label P (create_sliteral_label i)) ->
     function_does cl P k f args W value W' -> entered (w_mem W) args (p_frame P) size saved m ->
     exists p m', own_steps (p_label P) F (0%nat, m) (p, m') /\ returning (p_label P) F p m' /\ left (w_mem W) (w_mem W') value size saved m m'.
Proof. exact source_leaf. Qed.
Print Assumptions C48_machine_code_partial.
(** the greatest common divisor of 48 and 36 *)
Definition C48_gcd := bytes "int gcd(int a, int b) { int t; while (b != 0) { t = a % b; a = b; b = t; } return a; } int main(void) { return gcd(48, 36); }".
Definition C48_place : places := mkplaces (fun _ => None) (fun _ => None) 4080.
Definition C48_world : world := mkworld (mkmem (PositiveMap.empty _) [(4064, 4080)] 0) 0 [].
Definition C48_entry : state :=
  mkstate (mkregs 11 12 13 14 4088 15 36 48 16 17 18 19 20 21 22 23) None (mkmem (PositiveMap.empty _) [(4064, 4080); (4080, 8192)] 0).
Example C48_machine_case : exists s C code lives X u f W',
  front C48_gcd = Ok s /\ immcgen s = Ok C /\ regular_program s = true /\ pointers_last s = true /\ few_arguments s
  /\ allocate_regs 8 C = Ok (code, lives) /\ x64gen code lives = Ok X /\ translation_unit s = Ok u /\ In (bytes "gcd", f) (u_functions u) /\ leaf_function C code (bytes "gcd")
  /\ (exists F body v, x64_function X F /\ F = X64_LABEL X64_LABEL_FUNCTION v (bytes "gcd") :: prologue 16 [] ++ body ++ epilogue 16 [])
  /\ function_does no_call C48_place 100 f [(S4, 48); (S4, 36)] C48_world (Some (S4, 12)) W' /\ entered (w_mem C48_world) [(S4, 48); (S4, 36)] (p_frame C48_place) 16 [] C48_entry.
Proof.
  do 8 eexists. split; [vm_compute; reflexivity |]. split; [vm_compute; reflexivity |]. split; [vm_compute; reflexivity |]. split; [vm_compute; reflexivity |]. split; [repeat split |]. split; [vm_compute; reflexivity |]. split; [vm_compute; reflexivity |]. split; [vm_compute; reflexivity |].
  split; [right; left; vm_compute; reflexivity |]. split; [apply leaf_function_ok; vm_compute; reflexivity |].
  split; [| split].
  - match goal with |- exists F body v, x64_function ?X F /\ _ => exists (firstn 31 X), (skipn 4 (firstn (31 - 3) X)), X64_VIS_GLOBAL end. split; [| vm_compute; reflexivity].
    match goal with |- x64_function ?X _ => exists [], (skipn 31 X), X64_VIS_GLOBAL, (bytes "gcd"), (skipn 1 (firstn 31 X)) end. split; [vm_compute; reflexivity |]. split; [vm_compute; reflexivity |]. split; [| vm_compute; reflexivity].
    apply Forall_forall. vm_compute. repeat constructor.
  - do 4 eexists. split; [vm_compute; reflexivity |]. split; [vm_compute; reflexivity |]. split; [vm_compute; reflexivity |]. left. reflexivity.
  - constructor.
    + reflexivity.
    + intros []; cbn; lia.
    + intros k z x r E P A. destruct (Z.to_nat k) as [| [| i]] eqn:Ek; [injection E as <- <- | injection E as <- <- | destruct i; discriminate E].
      * assert (k = 0) as -> by lia. injection A as <-. reflexivity.
      * assert (k = 1) as -> by lia. injection A as <-. reflexivity.
    + split; [| reflexivity]. intros a b (A & r & [<- | []] & I). split; [exact A |]. exists (4064, 4080). split; [now left | exact I].
    + intros a A. change (0 <= match PositiveMap.find (cell a) (PositiveMap.empty Z) with Some b => b | None => 0 end < 256). rewrite PositiveMap.gempty. lia.
    + reflexivity.
    + cbn. lia.
    + split; [| cbn; lia]. split; [cbn; lia |]. exists (4080, 8192). split; [right; now left | cbn; lia].
    + intros a A (_ & r & [<- | []] & I). cbn in *. unfold saved_area in A. cbn in A. lia.
Qed.
(** other functions of this kind: loops over arrays, structures and strings, recursion-free arithmetic, switches *)
Definition C48_others := bytes "struct s { int a; char b; }; int sum(int *a, int n) { int s = 0; int i; for (i = 0; i < n; i = i + 1) s = s + a[i]; return s; } void sort(int *a, int n) { int i; int j; int t; for (i = 0; i < n; i++) for (j = i + 1; j < n; j++) if (a[j] < a[i]) { t = a[i]; a[i] = a[j]; a[j] = t; } } int member(struct s *p) { return p->a + p->b; } long long factorial(long long n) { long long r = 1; while (n > 1) { r = r * n; n = n - 1; } return r; } int len(char *s) { int n = 0; while (s[n]) n++; return n; } int absolute(int x) { return x < 0 ? -x : x; } int leap(int y) { return y % 4 == 0 && (y % 100 != 0 || y % 400 == 0); } int choose(int x) { switch (x) { case 1: return 3; default: return 4; } }".
Example C48_machine_others : exists s C code lives, front C48_others = Ok s /\ immcgen s = Ok C /\ regular_program s = true /\ pointers_last s = true /\ allocate_regs 8 C = Ok (code, lives)
  /\ length (functions C) = 8%nat /\ forall nm, In nm (functions C) -> leaf_function C code nm.
Proof.
  do 4 eexists. split; [vm_compute; reflexivity |]. split; [vm_compute; reflexivity |]. split; [vm_compute; reflexivity |]. split; [vm_compute; reflexivity |]. split; [vm_compute; reflexivity |]. split; [vm_compute; reflexivity |].
  intros nm I. apply leaf_function_ok. revert nm I. apply forallb_forall. vm_compute. reflexivity.
Qed.
