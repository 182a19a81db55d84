(** C48: functions whose machine code can be compared with their intermediate code instruction by instruction *)
From Verif Require Import Base CSem CProgram ImmcModel X64Model X64genModel X64Decode RegSpec CallSpec MarkSpec OpSpec X64Isa.
Local Open Scope Z_scope.

(** * Memory *)
(** what can be accessed in [M] can be accessed in [M'], and is the same there *)
Definition seen_in (M M' : memory) : Prop :=
  (forall a n, accessible M a n -> accessible M' a n) /\ forall a, accessible M a 1 -> peek M' a = peek M a.

(** * Instructions the code generator gets right *)
(** These are the hypotheses of C39 to C43, for the instruction [c], which is [c'] after register allocation; [after] and [after'] are
    the code after it in the function. The generated code may use the register of the first source for the result, so it must not be read again. *)
Definition not_read (r : Z) (l : list immc) : Prop := forall c, In c l -> ~ In r (reads c).
Definition used_up (c : immc) (after : list immc) : Prop :=
  match c with
  | IMMC_INST _ _ (Some (IMMC_OPERAND_REG _ r)) _ => writes c = Some (reg_id r) \/ not_read (reg_id r) after
  | _ => True
  end.
Definition in_dx (o : ope) : Prop := operand_reg o = Some RDX.
Definition fits (after after' : list immc) (c c' : immc) : Prop :=
  match c' with
  | IMMC_LABEL IMMC_LABEL_NORMAL _ _ => True
  | IMMC_INST IMMC_INST_JMP (Some (IMMC_OPERAND_LABEL _)) None None => True
  | IMMC_INST (IMMC_INST_JEQ | IMMC_INST_JNEQ | IMMC_INST_JGT | IMMC_INST_JGEQ | IMMC_INST_JLT | IMMC_INST_JLEQ)
      (Some (IMMC_OPERAND_LABEL _)) (Some f) (Some g) => exists s, sources f g s
  | IMMC_INST (IMMC_INST_ADD | IMMC_INST_SUB | IMMC_INST_AND | IMMC_INST_OR | IMMC_INST_XOR) (Some d) (Some f) (Some g) =>
      (exists s, sources f g s /\ destination d s) /\ used_up c after
  | IMMC_INST IMMC_INST_MUL (Some d) (Some f) (Some g) =>
      (exists s, sources f g s /\ destination d s /\ s <> S1) /\ accumulator_free f g /\ used_up c after
  | IMMC_INST (IMMC_INST_DIV | IMMC_INST_MOD) (Some d) (Some f) (Some g) =>
      (exists s, sources f g s /\ destination d s /\ s <> S1 /\ loadable g s) /\ accumulator_free f g /\ ~ (in_dx f /\ in_dx g)
      /\ (is_register g \/ not_read 6 after') /\ used_up c after
  | IMMC_INST (IMMC_INST_NEG | IMMC_INST_NOT) (Some d) (Some f) None =>
      is_register d /\ is_register_or_literal f /\ (exists s, operand_size d = Some s /\ operand_size f = Some s /\ loadable f s) /\ used_up c after
  | IMMC_INST (IMMC_INST_SETEQ | IMMC_INST_SETNEQ | IMMC_INST_SETLT | IMMC_INST_SETGT | IMMC_INST_SETLEQ | IMMC_INST_SETGEQ)
      (Some d) (Some f) (Some g) => (exists s, sources f g s) /\ is_register d /\ operand_size d <> None /\ operand_reg d = operand_reg f
  | IMMC_INST ((IMMC_INST_SAL | IMMC_INST_SAR) as t) (Some d) (Some f) (Some g) =>
      (exists s, sources f g s /\ destination d s) /\ (t = IMMC_INST_SAR -> operand_unsigned f = false) /\ used_up c after
  | IMMC_INST IMMC_INST_LOAD (Some d) (Some f) None =>
      is_register d /\ exists z, operand_size d = Some z
      /\ match f with
         | IMMC_OPERAND_PTR _ | IMMC_OPERAND_MEM _ | IMMC_OPERAND_LABEL _ => True
         | _ => is_register_or_literal f /\ operand_size f <> None /\ widens_operand f z /\ loadable f z
         end
  | IMMC_INST IMMC_INST_ADDR (Some d) (Some f) None => is_register d /\ operand_size d = Some S8
  | IMMC_INST IMMC_INST_STORE (Some _) (Some f) None => is_register_or_literal f /\ exists z, operand_size f = Some z /\ encodable z f
  | IMMC_INST IMMC_INST_LDARG (Some (IMMC_OPERAND_MEM _)) (Some (IMMC_OPERAND_ARG _ r)) None => argument_reg (reg_id r) <> None
  | IMMC_INST IMMC_INST_STRET None (Some f) None => is_register_or_literal f /\ exists z, operand_size f = Some z /\ loadable f z
  | _ => False
  end.

(** * Functions that call no others *)
Definition loads_argument (c : immc) : bool := match c with IMMC_INST IMMC_INST_LDARG _ _ _ => true | _ => false end.
Definition returns_value (c : immc) : bool := match c with IMMC_INST IMMC_INST_STRET _ _ _ => true | _ => false end.
(** [fn] is the code of a function and [fn'] its code after register allocation. The parameters are read first, a jump to the end
    follows when the value to be returned is known, and the instructions fit; in particular, there are no calls. *)
Definition leaf (fn fn' : list immc) : Prop :=
  exists v n size params body v' stop,
    fn = IMMC_LABEL IMMC_LABEL_FUNCTION v n :: IMMC_INST IMMC_INST_ENTER None size None
         :: params ++ body ++ [IMMC_LABEL IMMC_LABEL_NORMAL v' stop; IMMC_INST IMMC_INST_LEAVE None size None]
    /\ Forall (fun c => loads_argument c = true) params /\ Forall (fun c => loads_argument c = false) body
    /\ (forall b1 c b2, body = b1 ++ c :: b2 -> returns_value c = true -> exists b3, b2 = IMMC_INST IMMC_INST_JMP (Some (IMMC_OPERAND_LABEL stop)) None None :: b3)
    /\ (forall c, In c body -> goes_to c <> Some n) /\ (forall c r, In c body -> writes c = Some r -> 0 <= r)
    /\ (forall p c c', nth_error (params ++ body) p = Some c -> nth_error fn' (2 + p) = Some c' -> fits (skipn (3 + p) fn) (skipn (3 + p) fn') c c').

(** * Running on the machine without calls *)
(** one step in the code [F] of a function; positions count from 0 *)
Inductive own_step (e : env) (F : list x64) : nat * state -> nat * state -> Prop :=
| own_label p m t v n : nth_error F p = Some (X64_LABEL t v n) -> own_step e F (p, m) (S p, m)
| own_next p m t s d i m' : nth_error F p = Some (X64_INST t s d) -> decode t s d = Some i -> exec e i m = Next m' ->
    own_step e F (p, m) (S p, m')
| own_jump p m t s d i l m' q t' v : nth_error F p = Some (X64_INST t s d) -> decode t s d = Some i -> exec e i m = Goto l m' ->
    nth_error F q = Some (X64_LABEL t' v l) -> own_step e F (p, m) (q, m').
Inductive own_steps (e : env) (F : list x64) : nat * state -> nat * state -> Prop :=
| own_refl c : own_steps e F c c
| own_more a b c : own_step e F a b -> own_steps e F b c -> own_steps e F a c.
(** the stack below [S0] where the prologue puts the registers it saves can be accessed *)
Definition room (M : memory) (S0 size : Z) (saved : list xreg) : Prop :=
  accessible M (S0 - 8) 8 /\ forall j, (j < length saved)%nat -> accessible M (S0 - 8 - Z.max 0 size - 8 * Z.of_nat (S j)) 8.
(** [m] is a state in which a function is entered whose variables are below [frame], with the arguments [args] and the memory [M] of the
    C semantics; the registers it saves are kept where C has no objects *)
Record entered (M : memory) (args : list (size * Z)) (frame size : Z) (saved : list xreg) (m : state) : Prop := {
  en_frame : rget (regs m) RSP = frame + 8;
  en_regs : forall q, 0 <= rget (regs m) q < 2 ^ 64;
  en_args : forall k s x a, nth_error args (Z.to_nat k) = Some (s, x) -> 0 <= k -> argument_reg k = Some a -> low s (rget (regs m) a) = low s x;
  en_seen : seen_in M (mem m);
  en_bytes : byte_memory (mem m);
  en_size : size < 2 ^ 31;
  en_stack : frame_depth size saved <= rget (regs m) RSP < 2 ^ 64 - 8;
  en_room : room (mem m) (rget (regs m) RSP) size saved;
  en_apart : forall a, saved_area (rget (regs m) RSP) size saved a -> ~ accessible M a 1 }.
(** [m'] is a state in which the function entered in [m] returns: registers and memory of the caller are as they were, the memory of the C
    semantics is [M'], and the value to be returned is in its register *)
Record left (M M' : memory) (value : option (size * Z)) (size : Z) (saved : list xreg) (m m' : state) : Prop := {
  le_regs : returned m m';
  le_seen : seen_in M' (mem m');
  le_kept : forall a, 0 <= a -> ~ accessible M a 1 -> ~ saved_area (rget (regs m) RSP) size saved a -> peek (mem m') a = peek (mem m) a;
  le_value : forall s x, value = Some (s, x) -> low s (rget (regs m') RAX) = x }.

(** * Functions of a program *)
(** the function [nm] of the program with the intermediate code [C], [code] after register allocation, calls no others *)
Definition leaf_function (C code : list immc) (nm : name) : Prop :=
  exists A fn B v, C = A ++ fn ++ B /\ is_function fn B /\ hd_error fn = Some (IMMC_LABEL IMMC_LABEL_FUNCTION v nm)
    /\ leaf fn (firstn (length fn) (skipn (length A) code)).
(** in C, the function [f] called with [args] takes the world from [W] to [W'] and returns [value], if anything; [k] bounds the depth of statements *)
Definition function_does (cl : caller) (P : places) (k : nat) (f : func) (args : list (size * Z)) (W : world) (value : option (size * Z)) (W' : world) : Prop :=
  exists Sc0 Sc W1 fl, function_scopes f = Ok Sc0 /\ bind_params P (f_params f) args Sc0 W = Ok (Sc, W1)
    /\ CSem.exec_list cl P k None (f_body f) Sc W1 = Ok (fl, W') /\ (fl = Return value \/ fl = Normal /\ value = None).
