(** Model of src/x64: registers, operands, instructions, data and labels of the generated assembly code,
    and how they are printed. *)
From Verif Require Export ImmcModel.
Open Scope Z_scope.

(** * x64/suffix.c *)
(** suffix.h: the enum order is the one of the comparisons below *)
Inductive xsuffix := X64_SUFFIX_NONE | X64_SUFFIX_BYTE | X64_SUFFIX_WORD | X64_SUFFIX_LONG | X64_SUFFIX_QUAD.
Scheme Equality for xsuffix.
Definition xsuffix_num (s : xsuffix) : Z :=
  match s with
  | X64_SUFFIX_NONE => 0 | X64_SUFFIX_BYTE => 1 | X64_SUFFIX_WORD => 2 | X64_SUFFIX_LONG => 3 | X64_SUFFIX_QUAD => 4
  end.
(** suffix.c:3-16 *)
Definition x64suffix_get (nbytes : Z) : xsuffix :=
  match nbytes with
  | 1 => X64_SUFFIX_BYTE | 2 => X64_SUFFIX_WORD | 4 => X64_SUFFIX_LONG | 8 => X64_SUFFIX_QUAD
  | _ => X64_SUFFIX_NONE
  end.
(** suffix.c:18-31 *)
Definition x64suffix_tonbytes (s : xsuffix) : Z :=
  match s with
  | X64_SUFFIX_BYTE => 1 | X64_SUFFIX_WORD => 2 | X64_SUFFIX_LONG => 4 | X64_SUFFIX_QUAD => 8
  | X64_SUFFIX_NONE => 0
  end.
(** suffix.c:33-46 *)
Definition x64suffix_tochar (s : xsuffix) : Z :=
  match s with
  | X64_SUFFIX_BYTE => 98 | X64_SUFFIX_WORD => 119 | X64_SUFFIX_LONG => 108 | X64_SUFFIX_QUAD => 113
  | X64_SUFFIX_NONE => 0
  end.
(** suffix.c:48-50 *)
Definition x64suffix_greater (a b : xsuffix) : xsuffix := if xsuffix_num a >=? xsuffix_num b then a else b.

(** * x64/register.c *)
(** register.h X64RegisterId, in the order of the enum *)
Inductive xreg :=
  | AX_REG_ID | BX_REG_ID | CX_REG_ID | DX_REG_ID | SP_REG_ID | BP_REG_ID | SI_REG_ID | DI_REG_ID
  | R8_REG_ID | R9_REG_ID | R10_REG_ID | R11_REG_ID | R12_REG_ID | R13_REG_ID | R14_REG_ID | R15_REG_ID.
Scheme Equality for xreg.
Definition xreg_num (r : xreg) : Z :=
  match r with
  | AX_REG_ID => 0 | BX_REG_ID => 1 | CX_REG_ID => 2 | DX_REG_ID => 3
  | SP_REG_ID => 4 | BP_REG_ID => 5 | SI_REG_ID => 6 | DI_REG_ID => 7
  | R8_REG_ID => 8 | R9_REG_ID => 9 | R10_REG_ID => 10 | R11_REG_ID => 11
  | R12_REG_ID => 12 | R13_REG_ID => 13 | R14_REG_ID => 14 | R15_REG_ID => 15
  end.
(** register.c:5-6 *)
Definition ARG_REG_IDS : list xreg := [DI_REG_ID; SI_REG_ID; DX_REG_ID; CX_REG_ID; R8_REG_ID; R9_REG_ID].
Definition NUM_ARG_REGS : Z := 6.
(** register.c:8-10 *)
Definition NUM_CALLER_SAVED_REGS : Z := 8.
Definition CALLER_SAVED_REG_IDS : list xreg :=
  [CX_REG_ID; DX_REG_ID; SI_REG_ID; DI_REG_ID; R8_REG_ID; R9_REG_ID; R10_REG_ID; R11_REG_ID].
(** register.c:12-13 *)
Definition CALLEE_SAVED_REG_IDS : list xreg := [BX_REG_ID; BP_REG_ID; R12_REG_ID; R13_REG_ID; R14_REG_ID].
(** reading a table at a C int index; out of bounds is undefined *)
Definition reg_at (t : list xreg) (i : Z) : res xreg := if i <? 0 then UB else deref (nth_error t (Z.to_nat i)).
Definition CALLER (i : Z) : res xreg := reg_at CALLER_SAVED_REG_IDS i.
Definition CALLEE (i : Z) : res xreg := reg_at CALLEE_SAVED_REG_IDS i.
Definition ARG_REG (i : Z) : res xreg := reg_at ARG_REG_IDS i.

(** register.c:15 *)
Definition PC_NAME : list Z := bytes "%rip".
(** register.c:17-18 *)
Definition BREG_NAME (r : xreg) : list Z :=
  match r with
  | AX_REG_ID => bytes "%al" | BX_REG_ID => bytes "%bl" | CX_REG_ID => bytes "%cl" | DX_REG_ID => bytes "%dl"
  | SP_REG_ID => bytes "%spl" | BP_REG_ID => bytes "%bpl" | SI_REG_ID => bytes "%sil" | DI_REG_ID => bytes "%dil"
  | R8_REG_ID => bytes "%r8b" | R9_REG_ID => bytes "%r9b" | R10_REG_ID => bytes "%r10b" | R11_REG_ID => bytes "%r11b"
  | R12_REG_ID => bytes "%r12b" | R13_REG_ID => bytes "%r13b" | R14_REG_ID => bytes "%r14b" | R15_REG_ID => bytes "%r15b"
  end.
(** register.c:20-21, with the name at index 13 as it is there *)
Definition WREG_NAME (r : xreg) : list Z :=
  match r with
  | AX_REG_ID => bytes "%ax" | BX_REG_ID => bytes "%bx" | CX_REG_ID => bytes "%cx" | DX_REG_ID => bytes "%dx"
  | SP_REG_ID => bytes "%sp" | BP_REG_ID => bytes "%bp" | SI_REG_ID => bytes "%si" | DI_REG_ID => bytes "%di"
  | R8_REG_ID => bytes "%r8w" | R9_REG_ID => bytes "%r9w" | R10_REG_ID => bytes "%r10w" | R11_REG_ID => bytes "%r11w"
  | R12_REG_ID => bytes "%r12w" | R13_REG_ID => bytes "%r13q" | R14_REG_ID => bytes "%r14w" | R15_REG_ID => bytes "%r15w"
  end.
(** register.c:23-24 *)
Definition LREG_NAME (r : xreg) : list Z :=
  match r with
  | AX_REG_ID => bytes "%eax" | BX_REG_ID => bytes "%ebx" | CX_REG_ID => bytes "%ecx" | DX_REG_ID => bytes "%edx"
  | SP_REG_ID => bytes "%esp" | BP_REG_ID => bytes "%ebp" | SI_REG_ID => bytes "%esi" | DI_REG_ID => bytes "%edi"
  | R8_REG_ID => bytes "%r8d" | R9_REG_ID => bytes "%r9d" | R10_REG_ID => bytes "%r10d" | R11_REG_ID => bytes "%r11d"
  | R12_REG_ID => bytes "%r12d" | R13_REG_ID => bytes "%r13d" | R14_REG_ID => bytes "%r14d" | R15_REG_ID => bytes "%r15d"
  end.
(** register.c:26-27 *)
Definition QREG_NAME (r : xreg) : list Z :=
  match r with
  | AX_REG_ID => bytes "%rax" | BX_REG_ID => bytes "%rbx" | CX_REG_ID => bytes "%rcx" | DX_REG_ID => bytes "%rdx"
  | SP_REG_ID => bytes "%rsp" | BP_REG_ID => bytes "%rbp" | SI_REG_ID => bytes "%rsi" | DI_REG_ID => bytes "%rdi"
  | R8_REG_ID => bytes "%r8" | R9_REG_ID => bytes "%r9" | R10_REG_ID => bytes "%r10" | R11_REG_ID => bytes "%r11"
  | R12_REG_ID => bytes "%r12" | R13_REG_ID => bytes "%r13" | R14_REG_ID => bytes "%r14" | R15_REG_ID => bytes "%r15"
  end.
(** register.c:29-42; the NULL of the last case is printed with %s, which is undefined *)
Definition reg_name (r : xreg) (s : xsuffix) : res (list Z) :=
  match s with
  | X64_SUFFIX_BYTE => Ok (BREG_NAME r)
  | X64_SUFFIX_WORD => Ok (WREG_NAME r)
  | X64_SUFFIX_LONG => Ok (LREG_NAME r)
  | X64_SUFFIX_QUAD => Ok (QREG_NAME r)
  | X64_SUFFIX_NONE => UB
  end.

(** * x64/ope.c *)
(** ope.h; ope.c:11-86 *)
Inductive xope :=
  | X64_OPERAND_SUFFIX (s : xsuffix)
  | X64_OPERAND_REG (s : xsuffix) (r : xreg)
  | X64_OPERAND_PTR (r : xreg)
  | X64_OPERAND_JPTR (r : xreg)
  | X64_OPERAND_MEM (off : Z)
  | X64_OPERAND_LABEL (n : name)
  | X64_OPERAND_JLABEL (n : name)
  | X64_OPERAND_INT (s : xsuffix) (i : iliteral).
Definition new_suffix_x64ope := X64_OPERAND_SUFFIX.
Definition new_reg_x64ope := X64_OPERAND_REG.
Definition new_ptr_x64ope := X64_OPERAND_PTR.
Definition new_jptr_x64ope := X64_OPERAND_JPTR.
Definition new_mem_x64ope := X64_OPERAND_MEM.
Definition new_label_x64ope := X64_OPERAND_LABEL.
Definition new_jlabel_x64ope := X64_OPERAND_JLABEL.
Definition new_int_x64ope := X64_OPERAND_INT.
Definition new_signed_int_x64ope s t v := X64_OPERAND_INT s (new_signed t v).
Definition new_unsigned_int_x64ope s t v := X64_OPERAND_INT s (new_unsigned t v).
(** the suffix field of an operand *)
Definition xope_suffix (o : xope) : xsuffix :=
  match o with
  | X64_OPERAND_SUFFIX s | X64_OPERAND_REG s _ | X64_OPERAND_INT s _ => s
  | X64_OPERAND_PTR _ | X64_OPERAND_JPTR _ => X64_SUFFIX_QUAD
  | X64_OPERAND_MEM _ | X64_OPERAND_LABEL _ | X64_OPERAND_JLABEL _ => X64_SUFFIX_NONE
  end.

(** a string printed into a buffer of [cap] bytes; writing past the end is undefined *)
Definition in_buffer (cap : Z) (s : list Z) : res (list Z) :=
  if Z.of_nat (length s) + 1 <=? cap then Ok s else UB.

(** ope.c:105-140; the buffer has 50 bytes *)
Definition x64ope_tostring (o : xope) : res (list Z) :=
  match o with
  | X64_OPERAND_SUFFIX _ => Ok []
  | X64_OPERAND_REG s r => reg_name r s
  | X64_OPERAND_PTR r => do n <- reg_name r X64_SUFFIX_QUAD; in_buffer 50 (bytes "(" ++ n ++ bytes ")")
  | X64_OPERAND_JPTR r => do n <- reg_name r X64_SUFFIX_QUAD; in_buffer 50 (bytes "*" ++ n)
  | X64_OPERAND_MEM off =>
      do n <- reg_name BP_REG_ID X64_SUFFIX_QUAD;
      in_buffer 50 (print_signed (- off) ++ bytes "(" ++ n ++ bytes ")")
  | X64_OPERAND_LABEL n => in_buffer 50 (n ++ bytes "(" ++ PC_NAME ++ bytes ")")
  | X64_OPERAND_JLABEL n => in_buffer 50 n
  | X64_OPERAND_INT _ i => in_buffer 50 (bytes "$" ++ iliteral_display i)
  end.

(** * x64/inst.c *)
(** inst.h X64InstType *)
Inductive xinst :=
  | X64_INST_MOVX | X64_INST_MOVSXX | X64_INST_MOVZXX | X64_INST_MOVABSX | X64_INST_LEAX
  | X64_INST_CXTX | X64_INST_CXTD | X64_INST_CQTO | X64_INST_PUSHX | X64_INST_POPX
  | X64_INST_ADDX | X64_INST_SUBX | X64_INST_IMULX | X64_INST_DIVX | X64_INST_IDIVX | X64_INST_NEGX
  | X64_INST_ANDX | X64_INST_NOTX | X64_INST_ORX | X64_INST_XORX | X64_INST_SALX | X64_INST_SARX
  | X64_INST_CMPX
  | X64_INST_SETE | X64_INST_SETNE | X64_INST_SETA | X64_INST_SETAE | X64_INST_SETB | X64_INST_SETBE
  | X64_INST_SETG | X64_INST_SETGE | X64_INST_SETL | X64_INST_SETLE
  | X64_INST_JMP | X64_INST_JE | X64_INST_JNE | X64_INST_JA | X64_INST_JAE | X64_INST_JB | X64_INST_JBE
  | X64_INST_JG | X64_INST_JGE | X64_INST_JL | X64_INST_JLE | X64_INST_CALL | X64_INST_RET.
Scheme Equality for xinst.

(** inst.c:12-17 *)
Definition x64_inst_format (t : xinst) : list Z :=
  match t with
  | X64_INST_MOVX => bytes "mov%c" | X64_INST_MOVSXX => bytes "movs%c%c" | X64_INST_MOVZXX => bytes "movz%c%c"
  | X64_INST_MOVABSX => bytes "movabs%c" | X64_INST_LEAX => bytes "lea%c" | X64_INST_CXTX => bytes "c%ct%c"
  | X64_INST_CXTD => bytes "c%ctd" | X64_INST_CQTO => bytes "cqto" | X64_INST_PUSHX => bytes "push%c"
  | X64_INST_POPX => bytes "pop%c" | X64_INST_ADDX => bytes "add%c" | X64_INST_SUBX => bytes "sub%c"
  | X64_INST_IMULX => bytes "imul%c" | X64_INST_DIVX => bytes "div%c" | X64_INST_IDIVX => bytes "idiv%c"
  | X64_INST_NEGX => bytes "neg%c" | X64_INST_ANDX => bytes "and%c" | X64_INST_NOTX => bytes "not%c"
  | X64_INST_ORX => bytes "or%c" | X64_INST_XORX => bytes "xor%c" | X64_INST_SALX => bytes "sal%c"
  | X64_INST_SARX => bytes "sar%c" | X64_INST_CMPX => bytes "cmp%c"
  | X64_INST_SETE => bytes "sete" | X64_INST_SETNE => bytes "setne" | X64_INST_SETA => bytes "seta"
  | X64_INST_SETAE => bytes "setae" | X64_INST_SETB => bytes "setb" | X64_INST_SETBE => bytes "setbe"
  | X64_INST_SETG => bytes "setg" | X64_INST_SETGE => bytes "setge" | X64_INST_SETL => bytes "setl"
  | X64_INST_SETLE => bytes "setle" | X64_INST_JMP => bytes "jmp" | X64_INST_JE => bytes "je"
  | X64_INST_JNE => bytes "jne" | X64_INST_JA => bytes "ja" | X64_INST_JAE => bytes "jae" | X64_INST_JB => bytes "jb"
  | X64_INST_JBE => bytes "jbe" | X64_INST_JG => bytes "jg" | X64_INST_JGE => bytes "jge" | X64_INST_JL => bytes "jl"
  | X64_INST_JLE => bytes "jle" | X64_INST_CALL => bytes "call" | X64_INST_RET => bytes "ret"
  end.

(** sprintf with the given characters for the %c directives, in order *)
Fixpoint sprintf_c (fmt : list Z) (args : list Z) : list Z :=
  match fmt with
  | 37 :: 99 :: r =>
      match args with a :: args' => a :: sprintf_c r args' | [] => sprintf_c r [] end
  | c :: r => c :: sprintf_c r args
  | [] => []
  end.
(** the C string in a buffer: what comes before the first NUL *)
Fixpoint cstr (s : list Z) : list Z :=
  match s with [] => [] | c :: r => if c =? 0 then [] else c :: cstr r end.

(** inst.c:75-134 x64instcode_tostring *)
Definition suffix_bearing (o : option xope) : option xsuffix :=
  match o with
  | Some (X64_OPERAND_SUFFIX s | X64_OPERAND_REG s _ | X64_OPERAND_INT s _) => Some s
  | _ => None
  end.
Definition one_suffix (src dst : option xope) : xsuffix :=
  match suffix_bearing dst, suffix_bearing src with
  | Some s, _ => s
  | None, Some s => s
  | None, None => X64_SUFFIX_NONE
  end.
Definition x64instcode_tostring (t : xinst) (src dst : option xope) : res (list Z) :=
  match t with
  | X64_INST_MOVSXX | X64_INST_MOVZXX | X64_INST_CXTX =>
      do s <- deref src; do d <- deref dst;
      Ok (cstr (sprintf_c (x64_inst_format t) [x64suffix_tochar (xope_suffix s); x64suffix_tochar (xope_suffix d)]))
  | X64_INST_MOVX | X64_INST_MOVABSX | X64_INST_LEAX | X64_INST_CXTD | X64_INST_PUSHX | X64_INST_POPX
  | X64_INST_ADDX | X64_INST_SUBX | X64_INST_IMULX | X64_INST_DIVX | X64_INST_IDIVX | X64_INST_NEGX
  | X64_INST_ANDX | X64_INST_NOTX | X64_INST_ORX | X64_INST_XORX | X64_INST_SALX | X64_INST_SARX
  | X64_INST_CMPX =>
      Ok (cstr (sprintf_c (x64_inst_format t) [x64suffix_tochar (one_suffix src dst)]))
  | _ => Ok (x64_inst_format t)
  end.

(** inst.c:41-73 x64inst_tostring; the buffer has 200 bytes *)
Definition shown (o : option xope) : option xope :=
  match o with Some (X64_OPERAND_SUFFIX _) => None | _ => o end.
Definition x64inst_tostring (t : xinst) (src dst : option xope) : res (list Z) :=
  do c <- x64instcode_tostring t src dst;
  do s <- match shown src with
          | Some o => do n <- x64ope_tostring o; Ok (bytes "	" ++ n)
          | None => Ok []
          end;
  do d <- match shown dst with
          | Some o =>
              do n <- x64ope_tostring o;
              Ok (match shown src with Some _ => bytes ", " | None => bytes "	" end ++ n)
          | None => Ok []
          end;
  in_buffer 200 (bytes "	" ++ c ++ s ++ d ++ [10]).

(** * x64/data.c, x64/label.c, x64/x64.c *)
Inductive xdata := X64_DATA_BYTE | X64_DATA_WORD | X64_DATA_LONG | X64_DATA_QUAD | X64_DATA_ZERO | X64_DATA_STR.
Inductive xlabel := X64_LABEL_FUNCTION | X64_LABEL_VARIABLE | X64_LABEL_NORMAL.
Inductive xvis := X64_VIS_NONE | X64_VIS_GLOBAL | X64_VIS_LOCAL.
(** x64.h; x64.c:10-48. The data type of a string is always X64_DATA_STR, and of a number one of the
    others (x64gen/data.c:10-40) *)
Inductive x64 :=
  | X64_INST (t : xinst) (src dst : option xope)
  | X64_INT_DATA (t : xdata) (i : iliteral)
  | X64_STR_DATA (t : xdata) (s : sliteral)
  | X64_LABEL (t : xlabel) (v : xvis) (n : name).
Definition new_inst_x64 := X64_INST.
Definition new_int_data_x64 := X64_INT_DATA.
Definition new_str_data_x64 := X64_STR_DATA.
Definition new_label_x64 := X64_LABEL.

(** data.c:47-87: a .ascii with no string, or another directive with no number, reads a NULL pointer; the
    buffer has 200 bytes *)
Definition data_directive (t : xdata) : list Z :=
  match t with
  | X64_DATA_BYTE => bytes "	.byte	" | X64_DATA_WORD => bytes "	.word	" | X64_DATA_LONG => bytes "	.long	"
  | X64_DATA_QUAD => bytes "	.quad	" | X64_DATA_ZERO => bytes "	.zero	" | X64_DATA_STR => bytes "	.ascii	"
  end.
Definition x64data_tostring (t : xdata) (i : option iliteral) (s : option sliteral) : res (list Z) :=
  do v <- match t with
          | X64_DATA_STR => do s <- deref s; sliteral_display s
          | _ => do i <- deref i; Ok (iliteral_display i)
          end;
  in_buffer 200 (data_directive t ++ v ++ [10]).

(** label.c:27-62: the buffer has 200 bytes *)
Definition x64label_tostring (t : xlabel) (v : xvis) (n : name) : res (list Z) :=
  in_buffer 200
    (match t with
     | X64_LABEL_FUNCTION => bytes "	.text" ++ [10]
     | X64_LABEL_VARIABLE => bytes "	.data" ++ [10]
     | X64_LABEL_NORMAL => []
     end ++
     match v with
     | X64_VIS_GLOBAL => bytes "	.globl " ++ n ++ [10]
     | X64_VIS_LOCAL => bytes "	.local " ++ n ++ [10]
     | X64_VIS_NONE => []
     end ++ n ++ bytes ":" ++ [10]).

(** x64.c:69-80 *)
Definition x64_tostring (c : x64) : res (list Z) :=
  match c with
  | X64_INST t s d => x64inst_tostring t s d
  | X64_INT_DATA t i => x64data_tostring t (Some i) None
  | X64_STR_DATA t s => x64data_tostring t None (Some s)
  | X64_LABEL t v n => x64label_tostring t v n
  end.
(** main.c:104-110: the text of the output file *)
Fixpoint print_x64 (l : list x64) : res (list Z) :=
  match l with
  | [] => Ok []
  | c :: r => do s <- x64_tostring c; do t <- print_x64 r; Ok (s ++ t)
  end.
