(** C34, C44, C45: calls and the stack *)
From Verif Require Import Base SrtModel ImmcModel X64Model X64genModel X64Decode OpSpec LabelSpec X64Isa.
Local Open Scope Z_scope.

(** * Functions on the machine *)
(** the registers a function leaves as they were *)
Definition callee_saved : list reg := [RBX; RBP; RSP; R12; R13; R14; R15].
(** the state [m'] in which a call made in state [m] returns: the called function may have changed
    everything else *)
Definition returned (m m' : state) : Prop := forall q, In q callee_saved -> rget (regs m') q = rget (regs m) q.
(** one step in the code [F] of a function, a call and its return counting as one; positions count from 0 *)
Inductive step (e : env) (F : list x64) : nat * state -> nat * state -> Prop :=
| step_label p m t v n : nth_error F p = Some (X64_LABEL t v n) -> step e F (p, m) (S p, m)
| step_next p m t s d i m' : nth_error F p = Some (X64_INST t s d) -> decode t s d = Some i -> exec e i m = Next m' ->
    step e F (p, m) (S p, m')
| step_jump p m t s d i l m' q t' v : nth_error F p = Some (X64_INST t s d) -> decode t s d = Some i -> exec e i m = Goto l m' ->
    nth_error F q = Some (X64_LABEL t' v l) -> step e F (p, m) (q, m')
| step_call p m t s d i m1 m2 : nth_error F p = Some (X64_INST t s d) -> decode t s d = Some i ->
    (exists l, exec e i m = Calls l m1) \/ (exists a, exec e i m = Calls_at a m1) -> returned m1 m2 -> step e F (p, m) (S p, m2).
Inductive steps (e : env) (F : list x64) : nat * state -> nat * state -> Prop :=
| steps_refl c : steps e F c c
| steps_step a b c : steps e F a b -> step e F b c -> steps e F a c.
(** about to call a function *)
Definition calling (e : env) (F : list x64) (p : nat) (m : state) : Prop :=
  exists t s d i, nth_error F p = Some (X64_INST t s d) /\ decode t s d = Some i /\ ((exists l, exec e i m = Calls l m) \/ (exists a, exec e i m = Calls_at a m)).
(** about to return *)
Definition returning (e : env) (F : list x64) (p : nat) (m : state) : Prop :=
  exists t s d i, nth_error F p = Some (X64_INST t s d) /\ decode t s d = Some i /\ exec e i m = Returns m.
(** [F] is the code of one of the functions of the program [X]: from its label to the next function or variable *)
Definition x64_external (c : x64) : bool :=
  match c with X64_LABEL X64_LABEL_NORMAL _ _ => false | X64_LABEL _ _ _ => true | _ => false end.
Definition x64_function (X F : list x64) : Prop :=
  exists before after v n body, X = before ++ F ++ after /\ F = X64_LABEL X64_LABEL_FUNCTION v n :: body
    /\ (forall c, In c body -> x64_external c = false)
    /\ match after with [] => True | c :: _ => x64_external c = true end.

(** * Arguments in the source *)
(** the number of arguments of a call is a number the compiler can represent *)
Fixpoint few_arguments (s : srt) : Prop :=
  let 'Srt t _ _ cs := s in
  fold_right and True (List.map few_arguments cs)
  /\ match t, cs with SRT_CALL_EXPR, [_; Srt _ _ _ args] => Z.of_nat (length args) < 2 ^ 31 | _, _ => True end.
(** there is no call among the arguments of another call or in the expression for the called function *)
Fixpoint no_call (s : srt) : Prop :=
  let 'Srt t _ _ cs := s in t <> SRT_CALL_EXPR /\ fold_right and True (List.map no_call cs).
Fixpoint no_nested_call (s : srt) : Prop :=
  let 'Srt t _ _ cs := s in
  match t with SRT_CALL_EXPR => fold_right and True (List.map no_call cs) | _ => fold_right and True (List.map no_nested_call cs) end.
(** calls among the arguments of other calls are made when an even number of words is on the stack;
    [odd]: at present that number is odd. Arguments are evaluated and pushed from the last to the first, and
    one more word comes first if the number of arguments is above 6 and odd *)
Definition padded (n : nat) : bool := (6 <? n)%nat && Nat.odd n.
Fixpoint evenly (odd : bool) (s : srt) : Prop :=
  let 'Srt t _ _ cs := s in
  match t, cs with
  | SRT_CALL_EXPR, [f; Srt _ _ _ args] =>
      let pad := padded (length args) in
      odd = false /\ evenly (xorb pad (Nat.odd (length args))) f
      /\ (fix each (l : list srt) : Prop := match l with [] => True | a :: r => evenly (xorb pad (Nat.odd (length r))) a /\ each r end) args
  | _, _ => fold_right and True (List.map (evenly odd) cs)
  end.

(** * The stack in the intermediate code *)
Definition count_of (o : option ope) : Z := match o with Some (IMMC_OPERAND_INT _ i) => wraps 32 (sval i) | _ => 0 end.
(** how many bytes an instruction adds to the stack *)
Definition moves (c : immc) : Z :=
  match c with
  | IMMC_INST IMMC_INST_STARG _ _ _ => 8
  | IMMC_INST IMMC_INST_PREP _ n _ => let n := count_of n in if (6 <? n) && Z.odd n then 8 else 0
  | IMMC_INST IMMC_INST_CALL _ _ n => - 8 * Z.min 6 (Z.max 0 (count_of n))
  | IMMC_INST IMMC_INST_CLEAN _ n _ => let n := count_of n in if 6 <? n then - 16 * ((n - 6 + 1) / 2) else 0
  | _ => 0
  end.
Definition grown (cs : list immc) : Z := fold_right Z.add 0 (List.map moves cs).

(** * The code of a function *)
Definition quad (r : xreg) : option xope := Some (X64_OPERAND_REG X64_SUFFIX_QUAD r).
Definition number (v : Z) : option xope := Some (X64_OPERAND_INT X64_SUFFIX_QUAD (mkil IInt v 0)).
Definition prologue (size : Z) (saved : list xreg) : list x64 :=
  [X64_INST X64_INST_PUSHX (quad BP_REG_ID) None; X64_INST X64_INST_MOVX (quad SP_REG_ID) (quad BP_REG_ID)]
  ++ (if size >? 0 then [X64_INST X64_INST_SUBX (number size) (quad SP_REG_ID)] else [])
  ++ List.map (fun r => X64_INST X64_INST_PUSHX (quad r) None) saved
  ++ (if Nat.odd (length saved) then [X64_INST X64_INST_SUBX (number 8) (quad SP_REG_ID)] else []).
Definition epilogue (size : Z) (saved : list xreg) : list x64 :=
  (if Nat.odd (length saved) then [X64_INST X64_INST_ADDX (number 8) (quad SP_REG_ID)] else [])
  ++ List.map (fun r => X64_INST X64_INST_POPX None (quad r)) (rev saved)
  ++ (if size >? 0 then [X64_INST X64_INST_ADDX (number size) (quad SP_REG_ID)] else [])
  ++ [X64_INST X64_INST_POPX None (quad BP_REG_ID); X64_INST X64_INST_RET None None].
Definition function_code (F : list x64) (size : Z) (saved : list xreg) (body : list x64) : Prop :=
  exists v n, F = X64_LABEL X64_LABEL_FUNCTION v n :: prologue size saved ++ body ++ epilogue size saved.
(** how far the stack pointer is below its value at entry after the prologue *)
Definition frame_depth (size : Z) (saved : list xreg) : Z := 8 + Z.max 0 size + 8 * Z.of_nat (length saved) + (if Nat.odd (length saved) then 8 else 0).
(** where the prologue keeps the frame pointer and the other registers of the caller; [S0] is the stack pointer at entry *)
Definition saved_area (S0 size : Z) (saved : list xreg) (a : Z) : Prop :=
  S0 - 8 <= a < S0 \/ S0 - 8 - Z.max 0 size - 8 * Z.of_nat (length saved) <= a < S0 - 8 - Z.max 0 size.

(** * Passing arguments *)
(** [m'] differs from [m] only below the stack pointer, which is the same again, and in registers *)
Definition stack_kept (m m' : state) : Prop :=
  rget (regs m') RSP = rget (regs m) RSP
  /\ (forall a, rget (regs m) RSP <= a -> peek (mem m') a = peek (mem m) a)
  /\ (forall a n, accessible (mem m) a n -> accessible (mem m') a n).
(** the arguments [vs] of a call have been computed and pushed, the last one first, from [m] to [m']; what is
    executed in between (the code for the arguments) keeps the stack *)
Inductive pushed (e : env) : list (size * Z) -> state -> state -> Prop :=
| pushed_none m m' : stack_kept m m' -> pushed e [] m m'
| pushed_one f z v vs st cs st' m m1 m2 m3 : pushed e vs m m1 ->
    gen_inst_x64code (IMMC_INST IMMC_INST_STARG None (Some f) None) st = Ok (cs, st') ->
    is_register_or_literal f -> encodable S8 f -> operand_size f = Some z -> value m1 f = Some v ->
    runs e cs m1 (Next m2) -> stack_kept m2 m3 -> pushed e ((z, v) :: vs) m m3.
(** argument [k], of size [z], is [v] in a state in which a function is about to be called: the first six
    in registers, the others on the stack *)
Definition passed (m : state) (k : Z) (z : size) (v : Z) : Prop :=
  match argument_reg k with
  | Some q => low z (rget (regs m) q) = low z v
  | None => let a := rget (regs m) RSP + 8 * (k - 6) in
      6 <= k /\ accessible (mem m) a 8 /\ exists w, holds (mem m) a 8 w /\ low z w = low z v
  end.
(** the code generated for several instructions *)
Inductive generated : list immc -> xst -> list x64 -> xst -> Prop :=
| generated_nil st : generated [] st [] st
| generated_cons c l st cs st1 ds st2 : gen_inst_x64code c st = Ok (cs, st1) -> generated l st1 ds st2 -> generated (c :: l) st (cs ++ ds) st2.
(** reading parameters into their slots: the offset of the slot, the size and the number of each *)
Record parameter := mkparam { p_offset : Z; p_suffix : suffix; p_register : ireg }.
Definition load_parameter (p : parameter) : immc :=
  IMMC_INST IMMC_INST_LDARG (Some (IMMC_OPERAND_MEM (p_offset p))) (Some (IMMC_OPERAND_ARG (p_suffix p) (p_register p))) None.
Definition in_frame (m : state) (p : parameter) (z : size) : Prop :=
  suffix_size (p_suffix p) = Some z /\ size_bytes z <= p_offset p <= rget (regs m) RBP
  /\ accessible (mem m) (rget (regs m) RBP - p_offset p) (size_bytes z).
Definition apart (p q : parameter) : Prop :=
  forall y z, suffix_size (p_suffix p) = Some y -> suffix_size (p_suffix q) = Some z ->
  p_offset p <= p_offset q - size_bytes z \/ p_offset q <= p_offset p - size_bytes y.
