(** What the operations of the intermediate code mean on integers: the specification the generated
    machine code is compared with. *)
From Verif Require Import Base X64genModel X64Decode X64Isa.
Open Scope Z_scope.

(** A bit pattern read as a number of the given size and signedness *)
Definition interp (unsigned : bool) (s : size) (x : Z) : Z := if unsigned then low s x else signed s x.
(** The numbers of that size and signedness *)
Definition in_range (unsigned : bool) (s : size) (x : Z) : bool :=
  if unsigned then (0 <=? x) && (x <? 2 ^ nbits s) else (- 2 ^ (nbits s - 1) <=? x) && (x <? 2 ^ (nbits s - 1)).

Definition suffix_size (s : suffix) : option size :=
  match s with
  | IMMC_SUFFIX_BYTE => Some S1 | IMMC_SUFFIX_WORD => Some S2
  | IMMC_SUFFIX_LONG => Some S4 | IMMC_SUFFIX_QUAD => Some S8
  | IMMC_SUFFIX_NONE => None
  end.
Definition larger (a b : size) : size := if nbits a <? nbits b then b else a.

(** The eight registers the allocator hands out *)
Definition machine_reg (k : Z) : option reg :=
  match k with
  | 0 => Some RCX | 1 => Some RDX | 2 => Some RSI | 3 => Some RDI
  | 4 => Some X64Isa.R8 | 5 => Some X64Isa.R9 | 6 => Some X64Isa.R10 | 7 => Some X64Isa.R11
  | _ => None
  end.

(** A register or literal operand: its size, its signedness and its value in a machine state *)
Definition operand_size (o : ope) : option size :=
  match o with
  | IMMC_OPERAND_REG s _ | IMMC_OPERAND_INT s _ => suffix_size s
  | IMMC_OPERAND_PTR _ => Some S8
  | _ => None
  end.
Definition operand_unsigned (o : ope) : bool :=
  match o with
  | IMMC_OPERAND_REG _ r => reg_unsigned r
  | IMMC_OPERAND_INT _ i => iliteral_isunsigned i
  | _ => false
  end.
Definition operand_reg (o : ope) : option reg :=
  match o with
  | IMMC_OPERAND_REG _ r | IMMC_OPERAND_PTR r => machine_reg (reg_id r)
  | _ => None
  end.
Definition value (m : state) (o : ope) : option Z :=
  match o with
  | IMMC_OPERAND_REG s r =>
      match suffix_size s, machine_reg (reg_id r) with
      | Some z, Some q => Some (interp (reg_unsigned r) z (rget (regs m) q))
      | _, _ => None
      end
  | IMMC_OPERAND_INT _ i => Some (lit_value i)
  | _ => None
  end.

(** Binary operations on integers; [u] and [s] are the signedness and size the operation is done in.
    [None]: undefined. The result is still to be reduced to the size of the destination. *)
Definition binop (t : insttype) (u : bool) (s : size) (a b : Z) : option Z :=
  match t with
  | IMMC_INST_ADD => Some (a + b)
  | IMMC_INST_SUB => Some (a - b)
  | IMMC_INST_MUL => Some (a * b)
  | IMMC_INST_AND => Some (Z.land a b)
  | IMMC_INST_OR => Some (Z.lor a b)
  | IMMC_INST_XOR => Some (Z.lxor a b)
  | IMMC_INST_DIV =>
      let a := interp u s a in let b := interp u s b in
      if (b =? 0) || negb (in_range u s (Z.quot a b)) then None else Some (Z.quot a b)
  | IMMC_INST_MOD =>
      let a := interp u s a in let b := interp u s b in
      if (b =? 0) || negb (in_range u s (Z.quot a b)) then None else Some (Z.rem a b)
  | IMMC_INST_SAL => if (0 <=? b) && (b <? nbits s) then Some (Z.shiftl a b) else None
  | IMMC_INST_SAR => if (0 <=? b) && (b <? nbits s) then Some (Z.shiftr (interp u s a) b) else None
  | _ => None
  end.
Definition unop_spec (t : insttype) (a : Z) : option Z :=
  match t with
  | IMMC_INST_NEG => Some (- a)
  | IMMC_INST_NOT => Some (Z.lnot a)
  | _ => None
  end.
(** Comparisons, for the setting and the jumping instructions *)
Definition compare (t : insttype) (u : bool) (s : size) (a b : Z) : option bool :=
  let a := interp u s a in let b := interp u s b in
  match t with
  | IMMC_INST_SETEQ | IMMC_INST_JEQ => Some (a =? b)
  | IMMC_INST_SETNEQ | IMMC_INST_JNEQ => Some (negb (a =? b))
  | IMMC_INST_SETGT | IMMC_INST_JGT => Some (b <? a)
  | IMMC_INST_SETGEQ | IMMC_INST_JGEQ => Some (b <=? a)
  | IMMC_INST_SETLT | IMMC_INST_JLT => Some (a <? b)
  | IMMC_INST_SETLEQ | IMMC_INST_JLEQ => Some (a <=? b)
  | _ => None
  end.

(** The machine instructions of a list of assembly codes *)
Fixpoint insns (l : list x64) : option (list insn) :=
  match l with
  | [] => Some []
  | X64_INST t s d :: r =>
      match decode t s d, insns r with Some i, Some k => Some (i :: k) | _, _ => None end
  | _ => None
  end.
(** [code] assembles and runs from [m], with the given result *)
Definition runs (e : env) (code : list x64) (m : state) (o : outcome) : Prop :=
  exists l, insns code = Some l /\ exec_list e l m = o.

(** The registers that differ are among [l]; memory is the same *)
Definition changes_only (l : list reg) (m m' : state) : Prop :=
  mem m' = mem m /\ forall q, ~ In q l -> rget (regs m') q = rget (regs m) q.

(** The assembler takes the literal as an operand of this size *)
Definition encodable (s : size) (o : ope) : Prop :=
  match o with IMMC_OPERAND_INT _ i => imm_fits s (lit_value i) = true | _ => True end.
(** A register read as an unsigned 4-byte number and used as an 8-byte one has a clear upper half *)
Definition upper_clear (m : state) (o : ope) (s : size) : Prop :=
  match o with
  | IMMC_OPERAND_REG IMMC_SUFFIX_LONG r =>
      reg_unsigned r = true -> s = S8 ->
      match machine_reg (reg_id r) with Some q => 0 <= rget (regs m) q < 2 ^ 32 | None => False end
  | _ => True
  end.

Definition is_register (o : ope) : Prop := match o with IMMC_OPERAND_REG _ _ => True | _ => False end.
Definition is_register_or_literal (o : ope) : Prop :=
  match o with IMMC_OPERAND_REG _ _ | IMMC_OPERAND_INT _ _ => True | _ => False end.
(** There is no working code for widening an unsigned 4-byte register to 8 bytes (see the refutations) *)
Definition widens (unsigned : bool) (from to : size) : Prop := ~ (unsigned = true /\ from = S4 /\ to = S8).
Definition widens_operand (o : ope) (to : size) : Prop :=
  match o, operand_size o with
  | IMMC_OPERAND_REG _ r, Some z => widens (reg_unsigned r) z to
  | _, _ => True
  end.
(** The size two sources are brought to *)
Definition common (f g : ope) : option size :=
  match operand_size f, operand_size g with Some a, Some b => Some (larger a b) | _, _ => None end.
(** Two source operands for which the generated code works: the first a register, the second a register or
    a literal that fits, and one register is not used in two sizes *)
Definition sources (f g : ope) (s : size) : Prop :=
  is_register f /\ is_register_or_literal g /\ common f g = Some s
  /\ widens_operand f s /\ widens_operand g s /\ encodable s g
  /\ (operand_reg f = operand_reg g -> operand_size f = operand_size g).
(** The multiplier and the divider keep the first source in the accumulator, which widening a signed
    4-byte register to 8 bytes overwrites *)
Definition accumulator_free (f g : ope) : Prop :=
  ~ (operand_size f = Some S8 /\ operand_size g = Some S4 /\ is_register g /\ operand_unsigned g = false).
(** The destination: a register, to which the result is converted *)
Definition destination (d : ope) (s : size) : Prop :=
  is_register d /\ match operand_size d with Some z => widens (operand_unsigned d) s z | None => False end.
(** The value a result [r] computed in size [s] has in the destination *)
Definition result_in (d : ope) (s : size) (r : Z) : option Z :=
  match operand_size d with
  | Some z => Some (interp (operand_unsigned d) z (interp (operand_unsigned d) s r))
  | None => None
  end.
Definition regs_of (l : list ope) : list reg :=
  flat_map (fun o => match operand_reg o with Some q => [q] | None => [] end) l.
(** A literal the assembler takes in a move to a register *)
Definition loadable (o : ope) (s : size) : Prop :=
  match o with
  | IMMC_OPERAND_INT _ i => (match s with S8 => imm64_fits (lit_value i) | _ => imm_fits s (lit_value i) end) = true
  | _ => True
  end.
(** register [k] of the allocator holds a value that is needed after the current instruction *)
Definition live_after (st : xst) (k : nat) : Prop :=
  exists q, nth_error (x_lives st) k = Some q /\ liveseq_isalive q = Ok true.

(** * Memory *)
(** The address a memory operand denotes *)
Definition location (e : env) (m : state) (o : ope) : option Z :=
  match o with
  | IMMC_OPERAND_PTR r =>
      match machine_reg (reg_id r) with Some q => Some (low S8 (rget (regs m) q)) | None => None end
  | IMMC_OPERAND_MEM z => Some (low S8 (rget (regs m) RBP - z))
  | IMMC_OPERAND_LABEL n => e n
  | _ => None
  end.
(** byte [i] of a number *)
Definition byte (v : Z) (i : Z) : Z := (v / 2 ^ (8 * i)) mod 256.
(** [M'] is [M] with the bytes of [v], [n] of them, at [a] *)
Definition written (M : memory) (a : Z) (n : Z) (v : Z) (M' : memory) : Prop :=
  regions M' = regions M /\
  forall b, 0 <= b -> peek M' b = if (a <=? b) && (b <? a + n) then byte v (b - a) else peek M b.
(** the number whose bytes are at [a] *)
Definition holds (M : memory) (a : Z) (n : Z) (v : Z) : Prop :=
  0 <= v < 2 ^ (8 * n) /\ forall i, 0 <= i < n -> peek M (a + i) = byte v i.
(** memory cells contain bytes *)
Definition byte_memory (M : memory) : Prop := forall a, 0 <= a -> 0 <= peek M a < 256.
(** the access is inside one of the regions *)
Definition accessible (M : memory) (a : Z) (n : Z) : Prop :=
  0 <= a /\ exists r, In r (regions M) /\ fst r <= a /\ a + n <= snd r.
Definition size_bytes (s : size) : Z := Z.of_nat (nbytes s).

(** The calling convention: the first six arguments in registers, the others on the stack above the
    caller's frame pointer and the return address *)
Definition argument_reg (k : Z) : option reg :=
  match k with
  | 0 => Some RDI | 1 => Some RSI | 2 => Some RDX | 3 => Some RCX | 4 => Some X64Isa.R8 | 5 => Some X64Isa.R9
  | _ => None
  end.
Definition argument_in (m : state) (k : Z) (s : size) (v : Z) : Prop :=
  match argument_reg k with
  | Some q => low s (rget (regs m) q) = v
  | None =>
      let a := low S8 (rget (regs m) RBP + 16 + 8 * (k - 6)) in
      6 <= k /\ accessible (mem m) a (size_bytes s) /\ holds (mem m) a (size_bytes s) v
  end.
