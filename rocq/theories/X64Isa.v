(** The target: an instruction set semantics for the part of x86-64 the generated code uses, written from
    the architecture manuals and independent of the compiler's own data structures. *)
From Coq Require Import FMapPositive.
From Verif Require Import Base.
Open Scope Z_scope.

(** Operand sizes, in bytes 1, 2, 4, 8 *)
Inductive size := S1 | S2 | S4 | S8.
Definition nbytes (s : size) : nat := match s with S1 => 1 | S2 => 2 | S4 => 4 | S8 => 8 end.
Definition nbits (s : size) : Z := match s with S1 => 8 | S2 => 16 | S4 => 32 | S8 => 64 end.

Inductive reg :=
  | RAX | RBX | RCX | RDX | RSP | RBP | RSI | RDI | R8 | R9 | R10 | R11 | R12 | R13 | R14 | R15.
Definition reg_eqb (a b : reg) : bool :=
  match a, b with
  | RAX, RAX | RBX, RBX | RCX, RCX | RDX, RDX | RSP, RSP | RBP, RBP | RSI, RSI | RDI, RDI
  | R8, R8 | R9, R9 | R10, R10 | R11, R11 | R12, R12 | R13, R13 | R14, R14 | R15, R15 => true
  | _, _ => false
  end.

(** Memory operands: disp(%reg) and label(%rip) *)
Inductive addr := Base_disp (b : reg) (disp : Z) | Rip_label (l : name).
Inductive opnd := Reg (r : reg) | Imm (v : Z) | Mem (a : addr).
Inductive aluop := Add | Sub | Imul | And | Or | Xor | Cmp.
Inductive shop := Sal | Sar | Shr.
Inductive unop := Neg | Not.
Inductive cc := E | NE | A | AE | B | BE | G | GE | L | LE.
Inductive insn :=
  | Mov (s : size) (src dst : opnd)
  | Movsx (from to : size) (src dst : reg)
  | Movzx (from to : size) (src dst : reg)
  | Movabs (v : Z) (dst : reg)
  | Lea (s : size) (a : addr) (dst : reg)
  | Cltq
  | Cxtd (s : size)                  (* cwtd, cltd, cqto: sign of the accumulator into the data register *)
  | Push (src : opnd)
  | Pop (dst : reg)
  | Alu (op : aluop) (s : size) (src : opnd) (dst : reg)
  | Shift (op : shop) (s : size) (count : Z) (dst : reg)
  | Un (op : unop) (s : size) (dst : reg)
  | Div (s : size) (src : reg)
  | Idiv (s : size) (src : reg)
  | Set_cc (c : cc) (dst : reg)
  | Jmp (l : name)
  | Jcc (c : cc) (l : name)
  | Call (l : name)
  | Call_reg (r : reg)
  | Ret.

(** * Registers *)
Record regfile := mkregs {
  rax : Z; rbx : Z; rcx : Z; rdx : Z; rsp : Z; rbp : Z; rsi : Z; rdi : Z;
  r8 : Z; r9 : Z; r10 : Z; r11 : Z; r12 : Z; r13 : Z; r14 : Z; r15 : Z }.
Definition rget (f : regfile) (r : reg) : Z :=
  match r with
  | RAX => rax f | RBX => rbx f | RCX => rcx f | RDX => rdx f | RSP => rsp f | RBP => rbp f
  | RSI => rsi f | RDI => rdi f | R8 => r8 f | R9 => r9 f | R10 => r10 f | R11 => r11 f
  | R12 => r12 f | R13 => r13 f | R14 => r14 f | R15 => r15 f
  end.
Definition rset (f : regfile) (r : reg) (v : Z) : regfile :=
  let p (q : reg) := if reg_eqb q r then v else rget f q in
  mkregs (p RAX) (p RBX) (p RCX) (p RDX) (p RSP) (p RBP) (p RSI) (p RDI)
         (p R8) (p R9) (p R10) (p R11) (p R12) (p R13) (p R14) (p R15).

(** Reading the low bytes of a register, and writing them: a 4-byte write clears the upper half, a 1- or
    2-byte write keeps the rest. *)
Definition low (s : size) (v : Z) : Z := v mod 2 ^ nbits s.
Definition get (f : regfile) (s : size) (r : reg) : Z := low s (rget f r).
Definition put (f : regfile) (s : size) (r : reg) (v : Z) : regfile :=
  match s with
  | S8 | S4 => rset f r (low s v)
  | _ => rset f r ((rget f r / 2 ^ nbits s) * 2 ^ nbits s + low s v)
  end.

(** Signed reading of an [s]-sized value *)
Definition signed (s : size) (v : Z) : Z := wraps (nbits s) v.

(** * Flags; [None] where the manual leaves them undefined or this model does not need them *)
Record flags := mkflags { zf : bool; sf : bool; cf : bool; ovf : bool }.
Definition cmp_flags (s : size) (a b : Z) : flags :=
  let d := signed s (a - b) in
  mkflags (low s (a - b) =? 0) (d <? 0) (low s a <? low s b) (negb (d =? signed s a - signed s b)).
Definition cond (c : cc) (f : flags) : bool :=
  match c with
  | E => zf f
  | NE => negb (zf f)
  | A => negb (cf f) && negb (zf f)
  | AE => negb (cf f)
  | B => cf f
  | BE => cf f || zf f
  | G => negb (zf f) && eqb (sf f) (ovf f)
  | GE => eqb (sf f) (ovf f)
  | L => negb (eqb (sf f) (ovf f))
  | LE => zf f || negb (eqb (sf f) (ovf f))
  end.

(** * Memory: bytes at the addresses of the given regions; the byte [junk] where nothing was written *)
Record memory := mkmem { cells : PositiveMap.t Z; regions : list (Z * Z); junk : Z }.
Definition cell (a : Z) : positive := Z.to_pos (a + 1).
Definition in_region (a n : Z) (r : Z * Z) : bool := (fst r <=? a) && (a + n <=? snd r).
Definition valid (m : memory) (a : Z) (n : nat) : bool := (0 <=? a) && existsb (in_region a (Z.of_nat n)) (regions m).
Definition peek (m : memory) (a : Z) : Z :=
  match PositiveMap.find (cell a) (cells m) with Some b => b | None => junk m end.
Definition poke (m : memory) (a b : Z) : memory :=
  mkmem (PositiveMap.add (cell a) b (cells m)) (regions m) (junk m).
(** little endian *)
Fixpoint load_bytes (m : memory) (a : Z) (n : nat) : Z :=
  match n with O => 0 | S n => peek m a + 256 * load_bytes m (a + 1) n end.
Fixpoint store_bytes (m : memory) (a : Z) (n : nat) (v : Z) : memory :=
  match n with O => m | S n => store_bytes (poke m a (v mod 256)) (a + 1) n (v / 256) end.
Definition load (m : memory) (s : size) (a : Z) : option Z :=
  if valid m a (nbytes s) then Some (load_bytes m a (nbytes s)) else None.
Definition store (m : memory) (s : size) (a v : Z) : option memory :=
  if valid m a (nbytes s) then Some (store_bytes m a (nbytes s) v) else None.

(** * States and steps *)
Record state := mkstate { regs : regfile; fl : option flags; mem : memory }.
Definition set_regs (st : state) (f : regfile) : state := mkstate f (fl st) (mem st).
Definition set_arith (st : state) (f : regfile) : state := mkstate f None (mem st).
Definition set_mem (st : state) (m : memory) : state := mkstate (regs st) (fl st) m.

(** What one instruction does: go on, jump, call, return, or a fault *)
Inductive outcome :=
  | Next (st : state)
  | Goto (l : name) (st : state)
  | Calls (l : name) (st : state)
  | Calls_at (a : Z) (st : state)
  | Returns (st : state)
  | Fault.

(** [env] gives the addresses of labels *)
Definition env := name -> option Z.
Definition address (e : env) (st : state) (a : addr) : option Z :=
  match a with
  | Base_disp b d => Some (low S8 (rget (regs st) b + d))
  | Rip_label l => e l
  end.
Definition read (e : env) (s : size) (o : opnd) (st : state) : option Z :=
  match o with
  | Reg r => Some (get (regs st) s r)
  | Imm v => Some (low s v)
  | Mem a => match address e st a with Some p => load (mem st) s p | None => None end
  end.
Definition write (e : env) (s : size) (o : opnd) (v : Z) (st : state) : option state :=
  match o with
  | Reg r => Some (set_regs st (put (regs st) s r v))
  | Imm _ => None
  | Mem a =>
      match address e st a with
      | Some p => match store (mem st) s p v with Some m => Some (set_mem st m) | None => None end
      | None => None
      end
  end.
Definition push (v : Z) (st : state) : option state :=
  let p := low S8 (rsp (regs st) - 8) in
  match store (mem st) S8 p v with
  | Some m => Some (mkstate (rset (regs st) RSP p) (fl st) m)
  | None => None
  end.
Definition pop (st : state) : option (Z * state) :=
  match load (mem st) S8 (rsp (regs st)) with
  | Some v => Some (v, set_regs st (rset (regs st) RSP (low S8 (rsp (regs st) + 8))))
  | None => None
  end.
Definition alu (op : aluop) (a b : Z) : Z :=
  match op with
  | Add => a + b | Sub => a - b | Imul => a * b
  | And => Z.land a b | Or => Z.lor a b | Xor => Z.lxor a b
  | Cmp => a
  end.
Definition next (o : option state) : outcome := match o with Some st => Next st | None => Fault end.

(** [d] op= [s] for the ALU instructions; cmp only sets the flags *)
Definition exec (e : env) (i : insn) (st : state) : outcome :=
  match i with
  | Mov s src dst =>
      match read e s src st with Some v => next (write e s dst v st) | None => Fault end
  | Movsx s t src dst => Next (set_regs st (put (regs st) t dst (signed s (get (regs st) s src))))
  | Movzx s t src dst => Next (set_regs st (put (regs st) t dst (get (regs st) s src)))
  | Movabs v dst => Next (set_regs st (put (regs st) S8 dst v))
  | Lea s a dst => match address e st a with Some p => Next (set_regs st (put (regs st) s dst p)) | None => Fault end
  | Cltq => Next (set_regs st (put (regs st) S8 RAX (signed S4 (get (regs st) S4 RAX))))
  | Cxtd s => Next (set_regs st (put (regs st) s RDX (if signed s (get (regs st) s RAX) <? 0 then -1 else 0)))
  | Push src => match read e S8 src st with Some v => next (push v st) | None => Fault end
  | Pop dst =>
      match pop st with Some (v, st) => Next (set_regs st (put (regs st) S8 dst v)) | None => Fault end
  | Alu Cmp s src dst =>
      match read e s src st with
      | Some v => Next (mkstate (regs st) (Some (cmp_flags s (get (regs st) s dst) v)) (mem st))
      | None => Fault
      end
  | Alu op s src dst =>
      match read e s src st with
      | Some v => Next (set_arith st (put (regs st) s dst (alu op (get (regs st) s dst) v)))
      | None => Fault
      end
  | Shift op s n dst =>
      let c := n mod (if nbits s =? 64 then 64 else 32) in
      let v := get (regs st) s dst in
      Next (set_arith st (put (regs st) s dst
             (match op with Sal => Z.shiftl v c | Sar => Z.shiftr (signed s v) c | Shr => Z.shiftr v c end)))
  | Un op s dst =>
      let v := get (regs st) s dst in
      let f := put (regs st) s dst (match op with Neg => - v | Not => -1 - v end) in
      Next (match op with Neg => set_arith st f | Not => set_regs st f end)
  | Div s src =>
      let d := get (regs st) s src in
      let n := get (regs st) s RDX * 2 ^ nbits s + get (regs st) s RAX in
      if d =? 0 then Fault
      else if n / d >=? 2 ^ nbits s then Fault
      else Next (set_arith st (put (put (regs st) s RAX (n / d)) s RDX (n mod d)))
  | Idiv s src =>
      let d := signed s (get (regs st) s src) in
      let n := signed s (get (regs st) s RDX) * 2 ^ nbits s + get (regs st) s RAX in
      if d =? 0 then Fault
      else if (Z.quot n d >=? 2 ^ (nbits s - 1)) || (Z.quot n d <? - 2 ^ (nbits s - 1)) then Fault
      else Next (set_arith st (put (put (regs st) s RAX (Z.quot n d)) s RDX (Z.rem n d)))
  | Set_cc c dst =>
      match fl st with
      | Some f => Next (set_regs st (put (regs st) S1 dst (if cond c f then 1 else 0)))
      | None => Fault
      end
  | Jmp l => Goto l st
  | Jcc c l => match fl st with Some f => if cond c f then Goto l st else Next st | None => Fault end
  | Call l => Calls l st
  | Call_reg r => Calls_at (rget (regs st) r) st
  | Ret => Returns st
  end.

(** Straight-line code *)
Fixpoint exec_list (e : env) (l : list insn) (st : state) : outcome :=
  match l with
  | [] => Next st
  | i :: r => match exec e i st with Next st => exec_list e r st | o => o end
  end.
