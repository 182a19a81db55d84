(** The instructions of the target (X64Isa.v) that the compiler's assembly codes (X64Model.v) stand for.
    This is the assembler's reading of the printed line: the operand size is the one the mnemonic's suffix
    says, register names must have that size, and immediates must fit. A code the assembler has no
    encoding for has no meaning here. *)
From Verif Require Import Base X64Model.
From Verif Require Import X64Isa.
Open Scope Z_scope.

Definition size_of (s : xsuffix) : option size :=
  match s with
  | X64_SUFFIX_BYTE => Some S1 | X64_SUFFIX_WORD => Some S2
  | X64_SUFFIX_LONG => Some S4 | X64_SUFFIX_QUAD => Some S8
  | X64_SUFFIX_NONE => None
  end.
Definition reg_of (r : xreg) : reg :=
  match r with
  | AX_REG_ID => RAX | BX_REG_ID => RBX | CX_REG_ID => RCX | DX_REG_ID => RDX
  | SP_REG_ID => RSP | BP_REG_ID => RBP | SI_REG_ID => RSI | DI_REG_ID => RDI
  | R8_REG_ID => R8 | R9_REG_ID => R9 | R10_REG_ID => R10 | R11_REG_ID => R11
  | R12_REG_ID => R12 | R13_REG_ID => R13 | R14_REG_ID => R14 | R15_REG_ID => R15
  end.
(** the number an integer literal prints as *)
Definition lit_value (i : iliteral) : Z := if iliteral_isunsigned i then uval i else sval i.

(** Immediates the assembler accepts: any value of the operand size, as a signed or an unsigned number;
    for 8-byte operands it must be the sign extension of 4 bytes. *)
Definition imm_fits (s : size) (v : Z) : bool :=
  match s with
  | S8 => (- 2 ^ 63 <=? v) && (v <? 2 ^ 64) && (- 2 ^ 31 <=? wraps 64 v) && (wraps 64 v <? 2 ^ 31)
  | _ => (- 2 ^ (nbits s - 1) <=? v) && (v <? 2 ^ nbits s)
  end.
Definition imm64_fits (v : Z) : bool := (- 2 ^ 63 <=? v) && (v <? 2 ^ 64).

Definition size_eqb (a b : size) : bool :=
  match a, b with S1, S1 | S2, S2 | S4, S4 | S8, S8 => true | _, _ => false end.
(** a register operand of the given size *)
Definition reg_operand (s : size) (o : xope) : option reg :=
  match o with
  | X64_OPERAND_REG s' r =>
      match size_of s' with Some t => if size_eqb s t then Some (reg_of r) else None | None => None end
  | _ => None
  end.
Definition addr_operand (o : xope) : option addr :=
  match o with
  | X64_OPERAND_PTR r => Some (Base_disp (reg_of r) 0)
  | X64_OPERAND_MEM off => Some (Base_disp RBP (- off))
  | X64_OPERAND_LABEL n => Some (Rip_label n)
  | _ => None
  end.
(** a source or destination of the given size; [fits] says which immediates the instruction takes *)
Definition operand (s : size) (fits : Z -> bool) (o : xope) : option opnd :=
  match o with
  | X64_OPERAND_REG _ _ => match reg_operand s o with Some r => Some (Reg r) | None => None end
  | X64_OPERAND_INT _ i => if fits (lit_value i) then Some (Imm (lit_value i)) else None
  | _ => match addr_operand o with Some a => Some (Mem a) | None => None end
  end.
(** the operand size written in the mnemonic *)
Definition mnemonic_size (src dst : option xope) : option size := size_of (one_suffix src dst).

Definition condition (t : xinst) : option cc :=
  match t with
  | X64_INST_SETE | X64_INST_JE => Some E
  | X64_INST_SETNE | X64_INST_JNE => Some NE
  | X64_INST_SETA | X64_INST_JA => Some A
  | X64_INST_SETAE | X64_INST_JAE => Some AE
  | X64_INST_SETB | X64_INST_JB => Some B
  | X64_INST_SETBE | X64_INST_JBE => Some BE
  | X64_INST_SETG | X64_INST_JG => Some G
  | X64_INST_SETGE | X64_INST_JGE => Some GE
  | X64_INST_SETL | X64_INST_JL => Some L
  | X64_INST_SETLE | X64_INST_JLE => Some LE
  | _ => None
  end.

Notation "'let?' x := m 'in' k" := (match m with Some x => k | None => None end)
  (at level 200, x pattern, m at level 100, k at level 200, right associativity).

Definition decode_mov (s : size) (src dst : xope) : option insn :=
  match dst with
  | X64_OPERAND_REG _ _ =>
      let? d := reg_operand s dst in
      let? o := operand s (match s with S8 => imm64_fits | _ => imm_fits s end) src in
      Some (Mov s o (Reg d))
  | _ =>
      let? a := addr_operand dst in
      let? o := operand s (imm_fits s) src in
      match o with Mem _ => None | _ => Some (Mov s o (Mem a)) end
  end.
Definition decode_alu (op : aluop) (s : size) (src dst : xope) : option insn :=
  let? d := reg_operand s dst in
  let? o := operand s (imm_fits s) src in
  match op, s with
  | Imul, S1 => None
  | _, _ => Some (Alu op s o d)
  end.
Definition decode_ext (mk : size -> size -> reg -> reg -> insn) (src dst : xope) : option insn :=
  let? s := size_of (xope_suffix src) in
  let? t := size_of (xope_suffix dst) in
  let? a := reg_operand s src in
  let? b := reg_operand t dst in
  match s, t with
  | S1, (S2 | S4 | S8) | S2, (S4 | S8) => Some (mk s t a b)
  | _, _ => None
  end.
Definition decode_shift (op : shop) (s : size) (src dst : xope) : option insn :=
  let? d := reg_operand s dst in
  match src with
  | X64_OPERAND_INT _ i => if imm_fits S1 (lit_value i) then Some (Shift op s (lit_value i mod 256) d) else None
  | _ => None
  end.

Definition decode (t : xinst) (src dst : option xope) : option insn :=
  match t, src, dst with
  | X64_INST_MOVX, Some a, Some b => let? s := mnemonic_size src dst in decode_mov s a b
  | X64_INST_MOVSXX, Some a, Some b => decode_ext Movsx a b
  | X64_INST_MOVZXX, Some a, Some b => decode_ext Movzx a b
  | X64_INST_MOVABSX, Some (X64_OPERAND_INT _ i), Some b =>
      let? d := reg_operand S8 b in if imm64_fits (lit_value i) then Some (Movabs (lit_value i) d) else None
  | X64_INST_LEAX, Some a, Some b =>
      let? s := mnemonic_size src dst in
      let? m := addr_operand a in
      let? d := reg_operand s b in
      match s with S1 => None | _ => Some (Lea s m d) end
  | X64_INST_CXTX, Some (X64_OPERAND_SUFFIX X64_SUFFIX_LONG), Some (X64_OPERAND_SUFFIX X64_SUFFIX_QUAD) => Some Cltq
  | X64_INST_CXTD, Some (X64_OPERAND_SUFFIX X64_SUFFIX_WORD), None => Some (Cxtd S2)
  | X64_INST_CXTD, Some (X64_OPERAND_SUFFIX X64_SUFFIX_LONG), None => Some (Cxtd S4)
  | X64_INST_CQTO, None, None => Some (Cxtd S8)
  | X64_INST_PUSHX, Some a, None =>
      let? s := mnemonic_size src dst in
      let? o := operand S8 (imm_fits S8) a in
      match s with S8 => Some (Push o) | _ => None end
  | X64_INST_POPX, None, Some b => let? d := reg_operand S8 b in Some (Pop d)
  | X64_INST_ADDX, Some a, Some b => let? s := mnemonic_size src dst in decode_alu Add s a b
  | X64_INST_SUBX, Some a, Some b => let? s := mnemonic_size src dst in decode_alu Sub s a b
  | X64_INST_IMULX, Some a, Some b => let? s := mnemonic_size src dst in decode_alu Imul s a b
  | X64_INST_ANDX, Some a, Some b => let? s := mnemonic_size src dst in decode_alu And s a b
  | X64_INST_ORX, Some a, Some b => let? s := mnemonic_size src dst in decode_alu Or s a b
  | X64_INST_XORX, Some a, Some b => let? s := mnemonic_size src dst in decode_alu Xor s a b
  | X64_INST_CMPX, Some a, Some b => let? s := mnemonic_size src dst in decode_alu Cmp s a b
  | X64_INST_SALX, Some a, Some b => let? s := mnemonic_size src dst in decode_shift Sal s a b
  | X64_INST_SARX, Some a, Some b => let? s := mnemonic_size src dst in decode_shift Sar s a b
  | X64_INST_NEGX, None, Some b =>
      let? s := mnemonic_size src dst in let? d := reg_operand s b in Some (Un Neg s d)
  | X64_INST_NOTX, None, Some b =>
      let? s := mnemonic_size src dst in let? d := reg_operand s b in Some (Un Not s d)
  | X64_INST_DIVX, Some a, None =>
      let? s := mnemonic_size src dst in let? d := reg_operand s a in
      match s with S1 => None | _ => Some (Div s d) end
  | X64_INST_IDIVX, Some a, None =>
      let? s := mnemonic_size src dst in let? d := reg_operand s a in
      match s with S1 => None | _ => Some (Idiv s d) end
  | X64_INST_JMP, None, Some (X64_OPERAND_JLABEL n) => Some (Jmp n)
  | (X64_INST_SETE | X64_INST_SETNE | X64_INST_SETA | X64_INST_SETAE | X64_INST_SETB | X64_INST_SETBE
     | X64_INST_SETG | X64_INST_SETGE | X64_INST_SETL | X64_INST_SETLE), None, Some b =>
      let? c := condition t in let? d := reg_operand S1 b in Some (Set_cc c d)
  | (X64_INST_JE | X64_INST_JNE | X64_INST_JA | X64_INST_JAE | X64_INST_JB | X64_INST_JBE
     | X64_INST_JG | X64_INST_JGE | X64_INST_JL | X64_INST_JLE), None, Some (X64_OPERAND_JLABEL n) =>
      let? c := condition t in Some (Jcc c n)
  | X64_INST_CALL, Some (X64_OPERAND_JLABEL n), None => Some (Call n)
  | X64_INST_CALL, Some (X64_OPERAND_JPTR r), None => Some (Call_reg (reg_of r))
  | X64_INST_RET, None, None => Some Ret
  | _, _, _ => None
  end.

(** * Lines: a label, the bytes of a data directive, or an instruction *)
Inductive section := Text | Data | Same.
Inductive item := Label (s : section) (n : name) | Bytes (b : list Z) | Insn (i : insn).
(** little-endian bytes of a number *)
Fixpoint le_bytes (n : nat) (v : Z) : list Z :=
  match n with O => [] | S n => v mod 256 :: le_bytes n (v / 256) end.
Definition int_data (n : nat) (v : Z) : option (list Z) :=
  if (- 2 ^ (8 * Z.of_nat n - 1) <=? v) && (v <? 2 ^ (8 * Z.of_nat n)) then Some (le_bytes n v) else None.
Definition decode_item (c : x64) : option item :=
  match c with
  | X64_INST t s d => let? i := decode t s d in Some (Insn i)
  | X64_INT_DATA t i =>
      let? b := match t with
                | X64_DATA_BYTE => int_data 1 (lit_value i)
                | X64_DATA_WORD => int_data 2 (lit_value i)
                | X64_DATA_LONG => int_data 4 (lit_value i)
                | X64_DATA_QUAD => int_data 8 (lit_value i)
                | X64_DATA_ZERO => if 0 <=? lit_value i then Some (repeat 0 (Z.to_nat (lit_value i))) else None
                | X64_DATA_STR => None
                end in Some (Bytes b)
  | X64_STR_DATA _ s => Some (Bytes (List.map (fun c => c mod 256) s))
  | X64_LABEL t _ n =>
      Some (Label match t with X64_LABEL_FUNCTION => Text | X64_LABEL_VARIABLE => Data | X64_LABEL_NORMAL => Same end n)
  end.
Fixpoint decode_items (l : list x64) : option (list item) :=
  match l with
  | [] => Some []
  | c :: r => let? i := decode_item c in let? t := decode_items r in Some (i :: t)
  end.
