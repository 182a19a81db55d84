(** C48: functions that call others, one function at a time *)
From Verif Require Import Base CSem CProgram ImmcModel X64Model X64genModel X64Decode RegSpec CallSpec MarkSpec OpSpec SimSpec X64Isa.
Local Open Scope Z_scope.

(** * Calls in the intermediate code *)
(** A call is: prepare, compute and push the arguments from the last to the first, call, clean up. [Arguments n k]: of [n] arguments [k] are pushed. *)
Inductive phase := Outside | Arguments (n k : Z) | Called.
Definition call_part (c : immc) : bool :=
  match c with IMMC_INST (IMMC_INST_PREP | IMMC_INST_STARG | IMMC_INST_CALL | IMMC_INST_CLEAN) _ _ _ => true | _ => false end.
(** labels, jumps and the end of a function *)
Definition boundary (c : immc) : bool :=
  match c with IMMC_LABEL _ _ _ => true | _ => match goes_to c with Some _ => true | None => returns_value c || loads_argument c end end.
(** No more than six arguments, no calls within calls, no jumps among the arguments, and no calls through pointers *)
Definition next_phase (p : phase) (c : immc) : option phase :=
  match c, p with
  | IMMC_INST IMMC_INST_PREP None (Some (IMMC_OPERAND_INT _ i)) None, Outside =>
      let n := lit_value i in if (0 <=? n) && (n <=? 6) && (wraps 32 (sval i) =? n) then Some (Arguments n 0) else None
  | IMMC_INST IMMC_INST_STARG (Some (IMMC_OPERAND_ARG _ r)) (Some _) None, Arguments n k =>
      if (k <? n) && (reg_id r =? n - 1 - k) then Some (Arguments n (k + 1)) else None
  | IMMC_INST IMMC_INST_CALL _ (Some (IMMC_OPERAND_LABEL _)) (Some (IMMC_OPERAND_INT _ i)), Arguments n k =>
      if (k =? n) && (lit_value i =? n) && (wraps 32 (sval i) =? n) then Some Called else None
  | IMMC_INST IMMC_INST_CLEAN None (Some (IMMC_OPERAND_INT _ i)) None, Called => if wraps 32 (sval i) <=? 6 then Some Outside else None
  | _, Called => None
  | _, Outside => if call_part c then None else Some Outside
  | _, Arguments n k => if call_part c || boundary c then None else Some (Arguments n k)
  end.
Fixpoint phase_after (p : phase) (l : list immc) : option phase :=
  match l with [] => Some p | c :: r => match next_phase p c with Some p => phase_after p r | None => None end end.

(** * Instructions the code generator gets right *)
Definition call_fits (c : immc) : Prop :=
  match c with
  | IMMC_INST (IMMC_INST_PREP | IMMC_INST_CLEAN) _ _ _ => True
  | IMMC_INST IMMC_INST_STARG _ (Some f) _ => is_register_or_literal f /\ encodable S8 f /\ operand_size f <> None
  | IMMC_INST IMMC_INST_CALL d _ _ => match d with Some d => is_register d /\ operand_size d <> None | None => True end
  | _ => False
  end.
(** a function as in [leaf], but with calls *)
Definition with_calls (fn fn' : list immc) : Prop :=
  exists v n size params body v' stop,
    fn = IMMC_LABEL IMMC_LABEL_FUNCTION v n :: IMMC_INST IMMC_INST_ENTER None size None
         :: params ++ body ++ [IMMC_LABEL IMMC_LABEL_NORMAL v' stop; IMMC_INST IMMC_INST_LEAVE None size None]
    /\ Forall (fun c => loads_argument c = true) params /\ Forall (fun c => loads_argument c = false) body
    /\ (forall b1 c b2, body = b1 ++ c :: b2 -> returns_value c = true -> exists b3, b2 = IMMC_INST IMMC_INST_JMP (Some (IMMC_OPERAND_LABEL stop)) None None :: b3)
    /\ (forall c, In c body -> goes_to c <> Some n) /\ (forall c r, In c body -> writes c = Some r -> 0 <= r)
    /\ phase_after Outside body = Some Outside
    /\ (forall p c c', nth_error (params ++ body) p = Some c -> nth_error fn' (2 + p) = Some c' ->
          if call_part c then call_fits c' else fits (skipn (3 + p) fn) (skipn (3 + p) fn') c c').
(** the function [nm] of the program with the intermediate code [C], [code] after register allocation *)
Definition modest_function (C code : list immc) (nm : name) : Prop :=
  exists A fn B v, C = A ++ fn ++ B /\ is_function fn B /\ hd_error fn = Some (IMMC_LABEL IMMC_LABEL_FUNCTION v nm)
    /\ with_calls fn (firstn (length fn) (skipn (length A) code)).
(** the values functions get from others are of the sizes [width] says; [lab] says where the functions are *)
Definition results_fit (C : list immc) (lab : name -> option Z) (width : Z -> option size) : Prop :=
  forall d l i z a, In (IMMC_INST IMMC_INST_CALL (Some d) (Some (IMMC_OPERAND_LABEL l)) i) C -> operand_size d = Some z -> lab l = Some a -> width a = Some z.

(** * Running on the machine with calls *)
(** [K p a m m']: the function at [a], called in [m], returns to the position [p] in [m'] *)
Inductive step_with (K : nat -> Z -> state -> state -> Prop) (e : env) (F : list x64) : nat * state -> nat * state -> Prop :=
| with_own a b : own_step e F a b -> step_with K e F a b
| with_call p m t s d i l a m' : nth_error F p = Some (X64_INST t s d) -> decode t s d = Some i -> exec e i m = Calls l m -> e l = Some a -> K (S p) a m m' ->
    step_with K e F (p, m) (S p, m').
Inductive steps_with (K : nat -> Z -> state -> state -> Prop) (e : env) (F : list x64) : nat * state -> nat * state -> Prop :=
| with_refl c : steps_with K e F c c
| with_more a b c : step_with K e F a b -> steps_with K e F b c -> steps_with K e F a c.
Definition in_range (m : state) : Prop := forall q, 0 <= rget (regs m) q < 2 ^ 64.
(** Calls on the machine ([K]) do what calls in C ([cl]) do: when the stack pointer is [sp], the objects of C are in the regions [Rc], the memory regions are [Rg], the arguments are in the registers of the
    calling convention and the memory is that of the C semantics, the call returns with the memory and the value that C prescribes, with the registers of the
    caller and with the memory above the stack pointer outside of the objects of C as it was. *)
Definition calls_do (cl : caller) (K : nat -> Z -> state -> state -> Prop) (width : Z -> option size) (sp : Z) (Rc Rg : list (Z * Z)) : Prop :=
  forall a vs W x W' m, cl a vs W = Ok (x, W') -> in_range m -> byte_memory (mem m) -> regions (w_mem W) = Rc -> regions (mem m) = Rg -> rget (regs m) RSP = sp -> seen_in (w_mem W) (mem m) ->
  (forall j z v, nth_error vs (Z.to_nat j) = Some (z, v) -> 0 <= j -> exists q, argument_reg j = Some q /\ low z (rget (regs m) q) = v) ->
  regions (w_mem W') = Rc /\
  forall p, exists m', K p a m m' /\ returned m m' /\ in_range m' /\ byte_memory (mem m') /\ regions (mem m') = Rg /\ seen_in (w_mem W') (mem m')
    /\ (forall z, width a = Some z -> low z (rget (regs m') RAX) = low z x) /\ forall b, sp <= b -> ~ accessible (w_mem W) b 1 -> peek (mem m') b = peek (mem m) b.
(** there is space for six arguments below the frame, where C has no objects *)
Definition argument_room (M M' : memory) (sp : Z) : Prop :=
  48 <= sp /\ (forall j, 1 <= j <= 6 -> accessible M' (sp - 8 * j) 8) /\ forall a, sp - 48 <= a < sp -> ~ accessible M a 1.
(** as [left], for functions that use the stack below their frame *)
Record returns_with (M M' : memory) (value : option (size * Z)) (size : Z) (saved : list xreg) (m m' : state) : Prop := {
  rw_regs : returned m m';
  rw_seen : seen_in M' (mem m');
  rw_kept : forall a, rget (regs m) RSP <= a -> ~ accessible M a 1 -> peek (mem m') a = peek (mem m) a;
  rw_value : forall s x, value = Some (s, x) -> low s (rget (regs m') RAX) = x;
  rw_range : in_range m';
  rw_bytes : byte_memory (mem m');
  rw_regions : regions (mem m') = regions (mem m);
  rw_world : regions M' = regions M }.
