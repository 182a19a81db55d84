(** An assembler's reading of the text of a file in AT&T syntax: the directives, instructions and operands
    the compiler uses. Independent of the compiler's own tables (X64Model.v). *)
From Verif Require Import Base LexSpec X64Decode.
From Verif Require Import X64Isa.
Open Scope Z_scope.

(** * Characters and numbers *)
Definition symchar (c : Z) : bool := nondigit c || digit c || (c =? 46).
(** symbol names: letters, digits, underscores and dots, not starting with a digit *)
Definition symbol (n : name) : bool := match n with [] => false | c :: r => negb (digit c) && forallb symchar n end.
Definition read_digits (s : list Z) : option Z :=
  match s with [] => None | _ => if forallb digit s then Some (number 10 s) else None end.
Definition read_number (s : list Z) : option Z :=
  match s with
  | 45 :: r => match read_digits r with Some v => Some (- v) | None => None end
  | _ => read_digits s
  end.
(** the parts of a text between the occurrences of a character *)
Fixpoint split_on (c : Z) (s : list Z) : list (list Z) :=
  match s with
  | [] => [[]]
  | x :: r =>
      match split_on c r with
      | p :: q => if x =? c then [] :: p :: q else (x :: p) :: q
      | [] => []
      end
  end.

(** * Registers *)
Definition legacy (b w d q : string) (r : reg) : list (list Z * (size * reg)) :=
  [(bytes b, (S1, r)); (bytes w, (S2, r)); (bytes d, (S4, r)); (bytes q, (S8, r))].
Definition numbered (n : string) (r : reg) : list (list Z * (size * reg)) :=
  legacy (n ++ "b") (n ++ "w") (n ++ "d") n r.
Definition register_names : list (list Z * (size * reg)) :=
  legacy "al" "ax" "eax" "rax" RAX ++ legacy "bl" "bx" "ebx" "rbx" RBX ++
  legacy "cl" "cx" "ecx" "rcx" RCX ++ legacy "dl" "dx" "edx" "rdx" RDX ++
  legacy "spl" "sp" "esp" "rsp" RSP ++ legacy "bpl" "bp" "ebp" "rbp" RBP ++
  legacy "sil" "si" "esi" "rsi" RSI ++ legacy "dil" "di" "edi" "rdi" RDI ++
  numbered "r8" R8 ++ numbered "r9" R9 ++ numbered "r10" R10 ++ numbered "r11" R11 ++
  numbered "r12" R12 ++ numbered "r13" R13 ++ numbered "r14" R14 ++ numbered "r15" R15.
Definition read_register (s : list Z) : option (size * reg) :=
  match s with 37 :: n => assoc register_names n | _ => None end.

(** * Operands *)
Inductive aop :=
  | ARegister (s : size) (r : reg)      (* %name *)
  | AImmediate (v : Z)                  (* $number *)
  | AMemory (a : addr)                  (* number(%reg), (%reg), symbol(%rip) *)
  | AIndirect (r : reg)                 (* *%reg *)
  | ASymbol (n : name).                 (* symbol *)
Definition read_memory (disp base : list Z) : option addr :=
  if name_eqb base (bytes "%rip)") then if symbol disp then Some (Rip_label disp) else None
  else
    match read_register (removelast base), last base 0 with
    | Some (S8, r), 41 =>
        match disp with
        | [] => Some (Base_disp r 0)
        | _ => match read_number disp with Some v => Some (Base_disp r v) | None => None end
        end
    | _, _ => None
    end.
Definition read_operand (s : list Z) : option aop :=
  match s with
  | 36 :: n => match read_number n with Some v => Some (AImmediate v) | None => None end
  | 37 :: _ => match read_register s with Some (z, r) => Some (ARegister z r) | None => None end
  | 42 :: t => match read_register t with Some (S8, r) => Some (AIndirect r) | _ => None end
  | _ =>
      match split_on 40 s with
      | [n] => if symbol n then Some (ASymbol n) else None
      | [disp; base] => match read_memory disp base with Some a => Some (AMemory a) | None => None end
      | _ => None
      end
  end.

(** * Mnemonics *)
Inductive mnemonic :=
  | MMov (s : size) | MMovsx (a b : size) | MMovzx (a b : size) | MMovabs | MLea (s : size) | MCltq | MCxtd (s : size)
  | MPush | MPop | MAlu (op : aluop) (s : size) | MShift (op : shop) (s : size) | MUn (op : unop) (s : size)
  | MDiv (s : size) | MIdiv (s : size) | MSet (c : cc) | MJmp | MJcc (c : cc) | MCall | MRet.
Definition sized (n : string) (mk : size -> mnemonic) : list (list Z * mnemonic) :=
  [(bytes (n ++ "b"), mk S1); (bytes (n ++ "w"), mk S2); (bytes (n ++ "l"), mk S4); (bytes (n ++ "q"), mk S8)].
Definition extending (n : string) (mk : size -> size -> mnemonic) : list (list Z * mnemonic) :=
  [(bytes (n ++ "bw"), mk S1 S2); (bytes (n ++ "bl"), mk S1 S4); (bytes (n ++ "bq"), mk S1 S8);
   (bytes (n ++ "wl"), mk S2 S4); (bytes (n ++ "wq"), mk S2 S8)].
Definition conditional (n : string) (mk : cc -> mnemonic) : list (list Z * mnemonic) :=
  [(bytes (n ++ "e"), mk E); (bytes (n ++ "ne"), mk NE); (bytes (n ++ "a"), mk A); (bytes (n ++ "ae"), mk AE);
   (bytes (n ++ "b"), mk B); (bytes (n ++ "be"), mk BE); (bytes (n ++ "g"), mk G); (bytes (n ++ "ge"), mk GE);
   (bytes (n ++ "l"), mk L); (bytes (n ++ "le"), mk LE)].
Definition mnemonics : list (list Z * mnemonic) :=
  sized "mov" MMov ++ extending "movs" MMovsx ++ extending "movz" MMovzx ++ [(bytes "movabsq", MMovabs)] ++
  sized "lea" MLea ++ [(bytes "cltq", MCltq); (bytes "cwtd", MCxtd S2); (bytes "cltd", MCxtd S4); (bytes "cqto", MCxtd S8);
                       (bytes "pushq", MPush); (bytes "popq", MPop)] ++
  sized "add" (MAlu X64Isa.Add) ++ sized "sub" (MAlu X64Isa.Sub) ++ sized "imul" (MAlu Imul) ++ sized "and" (MAlu X64Isa.And) ++
  sized "or" (MAlu X64Isa.Or) ++ sized "xor" (MAlu X64Isa.Xor) ++ sized "cmp" (MAlu X64Isa.Cmp) ++
  sized "sal" (MShift Sal) ++ sized "sar" (MShift Sar) ++ sized "neg" (MUn Neg) ++ sized "not" (MUn Not) ++
  sized "div" MDiv ++ sized "idiv" MIdiv ++ conditional "set" MSet ++
  [(bytes "jmp", MJmp)] ++ conditional "j" MJcc ++ [(bytes "call", MCall); (bytes "ret", MRet)].

(** * Instructions: sizes must agree and immediates must fit *)
Definition op_reg (s : size) (o : aop) : option reg :=
  match o with ARegister z r => if size_eqb s z then Some r else None | _ => None end.
Definition op_any (s : size) (fits : Z -> bool) (o : aop) : option opnd :=
  match o with
  | ARegister z r => if size_eqb s z then Some (Reg r) else None
  | AImmediate v => if fits v then Some (Imm v) else None
  | AMemory a => Some (Mem a)
  | _ => None
  end.
Definition assemble (m : mnemonic) (ops : list aop) : option insn :=
  match m, ops with
  | MMov s, [a; ARegister z d] =>
      if size_eqb s z then
        match op_any s (match s with S8 => imm64_fits | _ => imm_fits s end) a with Some o => Some (Mov s o (Reg d)) | None => None end
      else None
  | MMov s, [a; AMemory d] =>
      match op_any s (imm_fits s) a with Some (Mem _) | None => None | Some o => Some (Mov s o (Mem d)) end
  | MMovsx s t, [a; b] => match op_reg s a, op_reg t b with Some a, Some b => Some (Movsx s t a b) | _, _ => None end
  | MMovzx s t, [a; b] => match op_reg s a, op_reg t b with Some a, Some b => Some (Movzx s t a b) | _, _ => None end
  | MMovabs, [AImmediate v; b] => match op_reg S8 b with Some b => if imm64_fits v then Some (Movabs v b) else None | None => None end
  | MLea s, [AMemory a; b] => match s, op_reg s b with S1, _ | _, None => None | _, Some b => Some (Lea s a b) end
  | MCltq, [] => Some Cltq
  | MCxtd s, [] => Some (Cxtd s)
  | MPush, [a] => match op_any S8 (imm_fits S8) a with Some o => Some (Push o) | None => None end
  | MPop, [b] => match op_reg S8 b with Some b => Some (Pop b) | None => None end
  | MAlu op s, [a; b] =>
      match op, s with
      | Imul, S1 => None
      | _, _ => match op_any s (imm_fits s) a, op_reg s b with Some a, Some b => Some (Alu op s a b) | _, _ => None end
      end
  | MShift op s, [AImmediate v; b] =>
      match op_reg s b with Some b => if imm_fits S1 v then Some (Shift op s (v mod 256) b) else None | None => None end
  | MUn op s, [b] => match op_reg s b with Some b => Some (Un op s b) | None => None end
  | MDiv s, [b] => match s, op_reg s b with S1, _ | _, None => None | _, Some b => Some (Div s b) end
  | MIdiv s, [b] => match s, op_reg s b with S1, _ | _, None => None | _, Some b => Some (Idiv s b) end
  | MSet c, [b] => match op_reg S1 b with Some b => Some (Set_cc c b) | None => None end
  | MJmp, [ASymbol n] => Some (Jmp n)
  | MJcc c, [ASymbol n] => Some (Jcc c n)
  | MCall, [ASymbol n] => Some (Call n)
  | MCall, [AIndirect r] => Some (Call_reg r)
  | MRet, [] => Some Ret
  | _, _ => None
  end.

(** * Lines *)
Fixpoint all_some {T} (l : list (option T)) : option (list T) :=
  match l with
  | [] => Some []
  | Some x :: r => match all_some r with Some t => Some (x :: t) | None => None end
  | None :: _ => None
  end.
(** operands are separated by commas; blanks around them do not count *)
Fixpoint skip_blank (s : list Z) : list Z := match s with 32 :: r => skip_blank r | _ => s end.
Definition read_operands (s : list Z) : option (list aop) :=
  all_some (List.map (fun t => read_operand (skip_blank t)) (split_on 44 s)).
Definition read_instruction (fields : list (list Z)) : option insn :=
  match fields with
  | [m] => match assoc mnemonics m with Some m => assemble m [] | None => None end
  | [m; ops] =>
      match assoc mnemonics m, read_operands ops with Some m, Some l => assemble m l | _, _ => None end
  | _ => None
  end.
(** What one line says. A line starting with a tab is a directive or an instruction, with its arguments after
    another tab (or, for symbol attributes, a blank); otherwise it is a label. *)
Inductive line := LSection (s : section) | LAttribute (n : name) | LLabel (n : name) | LBytes (b : list Z) | LInsn (i : insn).
Definition data_line (d : list Z) (arg : list Z) : option (list Z) :=
  if name_eqb d (bytes ".ascii") then match arg with 34 :: t => gas_ascii t | _ => None end
  else
    match read_number arg with
    | None => None
    | Some v =>
        if name_eqb d (bytes ".byte") then int_data 1 v
        else if name_eqb d (bytes ".word") then int_data 2 v
        else if name_eqb d (bytes ".long") then int_data 4 v
        else if name_eqb d (bytes ".quad") then int_data 8 v
        else if name_eqb d (bytes ".zero") then if 0 <=? v then Some (repeat 0 (Z.to_nat v)) else None
        else None
    end.
Definition read_line (s : list Z) : option line :=
  match s with
  | 9 :: t =>
      match split_on 9 t with
      | [d] =>
          if name_eqb d (bytes ".text") then Some (LSection Text)
          else if name_eqb d (bytes ".data") then Some (LSection Data)
          else
            match split_on 32 d with
            | [a; n] => if (name_eqb a (bytes ".globl") || name_eqb a (bytes ".local")) && symbol n then Some (LAttribute n) else None
            | _ => match read_instruction [d] with Some i => Some (LInsn i) | None => None end
            end
      | d :: r =>
          match t with
          | 46 :: _ => match r with
                       | [arg] => match data_line d arg with Some b => Some (LBytes b) | None => None end
                       | _ => None
                       end
          | _ => match read_instruction (d :: r) with Some i => Some (LInsn i) | None => None end
          end
      | [] => None
      end
  | _ =>
      match split_on 58 s with
      | [n; []] => if symbol n then Some (LLabel n) else None
      | _ => None
      end
  end.

(** * Files: every line ends with a newline. A section directive applies to the next label; [pending] is the
    section of the last directive. The bytes of a datum are compared with the ones meant as C chars, so they
    are given back in 0..255 here. *)
Fixpoint read_lines (l : list (list Z)) (pending : section) : option (list item) :=
  match l with
  | [] => None
  | [[]] => match pending with Same => Some [] | _ => None end
  | s :: r =>
      match read_line s with
      | Some (LSection x) => read_lines r x
      | Some (LAttribute _) => read_lines r pending
      | Some (LLabel n) => match read_lines r Same with Some t => Some (Label pending n :: t) | None => None end
      | Some (LBytes b) =>
          match pending, read_lines r Same with Same, Some t => Some (Bytes (List.map (fun c => c mod 256) b) :: t) | _, _ => None end
      | Some (LInsn i) => match pending, read_lines r Same with Same, Some t => Some (Insn i :: t) | _, _ => None end
      | None => None
      end
  end.
Definition read_file (s : list Z) : option (list item) := read_lines (split_on 10 s) Same.
