(** C48: whole programs, C functions that call each other and machine functions that call each other *)
From Verif Require Import Base CSem CProgram X64Model X64Decode CallSpec OpSpec SimSpec SimCallSpec X64Isa.
Local Open Scope Z_scope.

(** * Calls on the machine *)
(** The call instruction pushes the return address and goes to the function; [ret] pops the return address, which must be the one that was pushed.
    [site F p] is the address of position [p] of the function [F]; [outer] is what functions defined elsewhere do; calls are nested at most [n] deep. *)
Definition pushes (a v : Z) (m m' : state) : Prop :=
  (forall q, q <> RSP -> rget (regs m') q = rget (regs m) q) /\ rget (regs m') RSP = a /\ a = rget (regs m) RSP - 8 /\ written (mem m) a 8 v (mem m').
Definition pops (v : Z) (m m' : state) : Prop :=
  (forall q, q <> RSP -> rget (regs m') q = rget (regs m) q) /\ holds (mem m) (rget (regs m) RSP) 8 v /\ rget (regs m') RSP = rget (regs m) RSP + 8 /\ mem m' = mem m.
Section Machine.
Variables (X : list x64) (lab : name -> option Z) (site : list x64 -> nat -> Z) (outer : Z -> state -> state -> Prop).
Definition function_at (a : Z) (F : list x64) : Prop :=
  exists nm w, x64_function X F /\ hd_error F = Some (X64_LABEL X64_LABEL_FUNCTION w nm) /\ lab nm = Some a.
Fixpoint machine_call (n : nat) (G : list x64) (p : nat) (a : Z) (m m' : state) : Prop :=
  match n with
  | O => outer a m m'
  | S n => outer a m m' \/
      exists F s m1 p2 m2, function_at a F /\ pushes s (site G p) m m1 /\ steps_with (machine_call n F) lab F (0%nat, m1) (p2, m2) /\ returning lab F p2 m2 /\ pops (site G p) m2 m'
  end.
End Machine.

(** * Calls in C *)
(** [M1] is [M] with one more object, between [lo] and [hi], of which the contents are not known *)
Definition with_object (M : memory) (lo hi : Z) (M1 : memory) : Prop :=
  regions M1 = (lo, hi) :: regions M /\ forall b, accessible M b 1 -> peek M1 b = peek M b.
Section Program.
Variables (u : unit_) (lab : name -> option Z) (strings : Z -> option Z) (width : Z -> option size).
(** the stack begins at [bottom]; the variables of the function [nm] need [held nm] bytes, and it uses [deep nm] bytes of the stack before it calls others *)
Variables (bottom : Z) (held deep : name -> Z).
(** With the stack pointer [sp], the function at [a] called with [args] takes the world from [W] to [W'] and returns [x], whatever its variables contain
    at first. [sub sp'] says what calls with the stack pointer [sp'] do. *)
Definition means (sub : Z -> caller) (sp a : Z) (args : list (size * Z)) (W : world) (x : Z) (W' : world) : Prop :=
  exists nm f, lab nm = Some a /\ In (nm, f) (u_functions u) /\ bottom + 48 <= sp - 8 - deep nm /\ regions (w_mem W') = regions (w_mem W)
  /\ forall M, with_object (w_mem W) (sp - 16 - held nm) (sp - 16) M ->
     exists k value Wf, function_does (sub (sp - 8 - deep nm)) (mkplaces lab strings (sp - 16)) k f args (set_wmem W M) value Wf
       /\ (forall b, accessible (w_mem W) b 1 -> peek (w_mem Wf) b = peek (w_mem W') b) /\ w_heap Wf = w_heap W' /\ w_out Wf = w_out W'
       /\ forall z, width a = Some z -> exists v, value = Some (z, v) /\ low z x = low z v.
(** [cl n sp] gives results of calls nested at most [n] deep with the stack pointer [sp]: those of the functions of the program, and for other functions those of [ext] *)
Definition program_meaning (ext : caller) (cl : nat -> Z -> caller) : Prop :=
  forall n sp a args W x W', cl n sp a args W = Ok (x, W') ->
    ext a args W = Ok (x, W') \/ exists n', n = S n' /\ means (cl n') sp a args W x W'.
End Program.
(** nothing below [sp] on the stack *)
Definition free_below (Rc : list (Z * Z)) (bottom sp : Z) : Prop := forall lo hi b, In (lo, hi) Rc -> lo <= b < hi -> bottom <= b < sp -> False.
