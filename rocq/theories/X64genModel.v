(** Model of src/x64gen: from allocated intermediate code to assembly code. *)
From Verif Require Export RegallocModel X64Model.
From Verif Require Import DtypeModel.
Open Scope Z_scope.

(** x64gen.h: the liveness sequences, moved on by every instruction, and the number of callee-saved
    registers used so far; the index into the code is the head of the remaining list *)
Record xst := mkxst { x_lives : list liveseq; x_evac : Z }.
Definition xres := res (list x64 * xst).

(** x64suffix_get(immcsuffix_tonbytes(...)), e.g. arithinst.c:31 *)
Definition xsuffix_of (o : ope) : xsuffix := x64suffix_get (immcsuffix_tonbytes (ope_suffix o)).

(** * x64gen/util.c *)
(** util.c:10-76 append_mov_code and the three functions it uses, for register operands *)
Definition append_mov_code_simple (ss : xsuffix) (sr : xreg) (ds : xsuffix) (dr : xreg) : list x64 :=
  if xreg_beq sr dr then [] else [X64_INST X64_INST_MOVX (Some (X64_OPERAND_REG ds sr)) (Some (X64_OPERAND_REG ds dr))].
Definition append_mov_code_unsigned (ss : xsuffix) (sr : xreg) (ds : xsuffix) (dr : xreg) : list x64 :=
  let s := X64_OPERAND_REG ss sr in
  let d := X64_OPERAND_REG ds dr in
  match ss with
  | X64_SUFFIX_BYTE | X64_SUFFIX_WORD => [X64_INST X64_INST_MOVZXX (Some s) (Some d)]
  | _ => if xreg_beq sr dr then [] else [X64_INST X64_INST_MOVX (Some s) (Some d)]
  end.
Definition append_mov_code_signed (ss : xsuffix) (sr : xreg) (ds : xsuffix) (dr : xreg) : list x64 :=
  let s := X64_OPERAND_REG ss sr in
  let d := X64_OPERAND_REG ds dr in
  match ss with
  | X64_SUFFIX_BYTE | X64_SUFFIX_WORD => [X64_INST X64_INST_MOVSXX (Some s) (Some d)]
  | _ =>
      (if xreg_beq sr AX_REG_ID then [] else [X64_INST X64_INST_MOVX (Some s) (Some (X64_OPERAND_REG ss AX_REG_ID))]) ++
      [X64_INST X64_INST_CXTX (Some (X64_OPERAND_SUFFIX ss)) (Some (X64_OPERAND_SUFFIX ds))] ++
      (if xreg_beq dr AX_REG_ID then [] else [X64_INST X64_INST_MOVX (Some (X64_OPERAND_REG ds AX_REG_ID)) (Some d)])
  end.
Definition append_mov_code (ss : xsuffix) (sr : xreg) (ds : xsuffix) (dr : xreg) (is_unsigned : bool) : list x64 :=
  if xsuffix_num ss >=? xsuffix_num ds then append_mov_code_simple ss sr ds dr
  else if is_unsigned then append_mov_code_unsigned ss sr ds dr
  else append_mov_code_signed ss sr ds dr.

(** util.c:78-84 *)
Fixpoint liveseqs_next (l : list liveseq) : res (list liveseq) :=
  match l with
  | [] => Ok []
  | s :: r => do s <- liveseq_goto_next s; do r <- liveseqs_next r; Ok (s :: r)
  end.
(** the end of every function generating one instruction *)
Definition finish (cs : list x64) (st : xst) : xres :=
  do l <- liveseqs_next (x_lives st); Ok (cs, mkxst l (x_evac st)).

(** util.c:86-96 *)
Fixpoint alive_indices (l : list liveseq) (i : Z) (s : iset) : res iset :=
  match l with
  | [] => Ok s
  | q :: r =>
      do a <- liveseq_isalive q;
      do s <- (if a then iadd s i else Ok s);
      alive_indices r (i + 1) s
  end.
Definition create_alive_reg_induces_set (l : list liveseq) : res iset := alive_indices l 0 new_set.
(** util.c:98-109; the table is read for every sequence *)
Fixpoint alive_regs (l : list liveseq) (i : Z) (s : iset) : res iset :=
  match l with
  | [] => Ok s
  | q :: r =>
      do id <- CALLER i;
      do a <- liveseq_isalive q;
      do s <- (if a then iadd s (xreg_num id) else Ok s);
      alive_regs r (i + 1) s
  end.
Definition create_alive_regs_set (l : list liveseq) : res iset := alive_regs l 0 new_set.
Definition icontains : iset -> Z -> res bool := set_contains Z.eqb hash_integer.
(** util.c:111-118 *)
Definition used_arg_regs (num_args : Z) : list xreg := firstn (Z.to_nat num_args) ARG_REG_IDS.
Fixpoint add_regs (l : list xreg) (s : iset) : res iset :=
  match l with [] => Ok s | r :: t => do s <- iadd s (xreg_num r); add_regs t s end.
Definition create_arg_regs_set (num_args : Z) : res iset := add_regs (used_arg_regs num_args) new_set.

(** CALLER_SAVED_REG_IDS[immcope->reg->reg_id] *)
Definition ope_real (o : ope) : res xreg := do r <- deref (ope_reg o); CALLER (reg_id r).
Definition ope_unsigned (o : ope) : res bool := do r <- deref (ope_reg o); Ok (reg_unsigned r).
Definition ope_iliteral (o : ope) : res iliteral := match o with IMMC_OPERAND_INT _ i => Ok i | _ => UB end.
Definition ope_label (o : ope) : res name := match o with IMMC_OPERAND_LABEL n => Ok n | _ => UB end.
Definition ope_sliteral (o : ope) : res sliteral := match o with IMMC_OPERAND_STR s => Ok s | _ => UB end.
(** the mem_offset field; immc/ope.c:105-113 sets it to 0 for the other kinds of operands *)
Definition ope_mem (o : ope) : Z := match o with IMMC_OPERAND_MEM z => z | _ => 0 end.
(** iliteral->signed_value read as an int *)
Definition ope_count (o : ope) : res Z := do i <- ope_iliteral o; Ok (wraps 32 (sval i)).

(** the part common to the instructions with two sources, e.g. arithinst.c:36-66: both are brought to the
    larger of the two suffixes, the first in [to], the second in place, and [t] is applied to them *)
Definition two_sources (t : xinst) (to : option xreg) (fst_src snd_src : ope) : res (list x64 * xsuffix * xreg) :=
  do f <- ope_real fst_src;
  let fs := xsuffix_of fst_src in
  let ss := xsuffix_of snd_src in
  let s := x64suffix_greater fs ss in
  let acc := match to with Some r => r | None => f end in
  do fu <- ope_unsigned fst_src;
  let widen_fst := append_mov_code fs f s acc fu in
  match snd_src with
  | IMMC_OPERAND_INT _ i =>
      Ok (widen_fst ++ [X64_INST t (Some (X64_OPERAND_INT s i)) (Some (X64_OPERAND_REG s acc))], s, acc)
  | IMMC_OPERAND_REG _ _ =>
      do g <- ope_real snd_src;
      do gu <- ope_unsigned snd_src;
      Ok (widen_fst ++ append_mov_code ss g s g gu ++
          [X64_INST t (Some (X64_OPERAND_REG s g)) (Some (X64_OPERAND_REG s acc))], s, acc)
  | _ => Fatal
  end.

(** * x64gen/arithinst.c, logicinst.c, bitinst.c, shrotinst.c *)
(** arithinst.c:11-79 add and sub; arithinst.c:81-141 mul, with its accumulator AX; logicinst.c:74-134 and, or, xor *)
Definition gen_binary (t : xinst) (to : option xreg) (dst fst_src snd_src : option ope) (st : xst) : xres :=
  do dst <- deref dst; do fst_src <- deref fst_src; do snd_src <- deref snd_src;
  do d <- ope_real dst;
  do (cs, s, acc) <- two_sources t to fst_src snd_src;
  do du <- ope_unsigned dst;
  finish (cs ++ append_mov_code s acc (xsuffix_of dst) d du) st.

(** arithinst.c:151-262 *)
Definition gen_divisional (result : xreg) (dst fst_src snd_src : option ope) (st : xst) : xres :=
  do dst <- deref dst; do fst_src <- deref fst_src; do snd_src <- deref snd_src;
  do d <- ope_real dst;
  do f <- ope_real fst_src;
  let fs := xsuffix_of fst_src in
  let ss := xsuffix_of snd_src in
  let s := x64suffix_greater fs ss in
  do fu <- ope_unsigned fst_src;
  let widen_fst := append_mov_code fs f s AX_REG_ID fu in
  do (cs, g) <-
    match snd_src with
    | IMMC_OPERAND_INT _ i =>
        do g <- CALLER (NUM_CALLER_SAVED_REGS - 2);
        Ok (widen_fst ++ [X64_INST X64_INST_MOVX (Some (X64_OPERAND_INT s i)) (Some (X64_OPERAND_REG s g))], g)
    | IMMC_OPERAND_REG _ _ =>
        do g <- ope_real snd_src;
        do gu <- ope_unsigned snd_src;
        let g' := if xreg_beq g DX_REG_ID then f else g in
        Ok (widen_fst ++ append_mov_code ss g s g' gu, g')
    | _ => Fatal
    end;
  do evac <-
    (if xreg_beq f DX_REG_ID || xreg_beq g DX_REG_ID || xreg_beq d DX_REG_ID then Ok false
     else do set <- create_alive_regs_set (x_lives st); icontains set (xreg_num DX_REG_ID));
  do ev <- CALLEE 0;
  let save := if evac then append_mov_code X64_SUFFIX_QUAD DX_REG_ID X64_SUFFIX_QUAD ev false else [] in
  do du <- ope_unsigned dst;
  let extend :=
    if du then
      [X64_INST X64_INST_MOVX (Some (new_signed_int_x64ope X64_SUFFIX_LONG IInt 0)) (Some (X64_OPERAND_REG X64_SUFFIX_LONG DX_REG_ID))]
    else if xsuffix_beq s X64_SUFFIX_QUAD then [X64_INST X64_INST_CQTO None None]
    else [X64_INST X64_INST_CXTD (Some (X64_OPERAND_SUFFIX s)) None] in
  let divide := [X64_INST (if du then X64_INST_DIVX else X64_INST_IDIVX) (Some (X64_OPERAND_REG s g)) None] in
  let move := append_mov_code s result (xsuffix_of dst) d du in
  let restore := if evac then append_mov_code X64_SUFFIX_QUAD ev X64_SUFFIX_QUAD DX_REG_ID false else [] in
  finish (cs ++ save ++ extend ++ divide ++ move ++ restore)
         (if evac && (x_evac st <? 1) then mkxst (x_lives st) 1 else st).

(** arithinst.c:264-309 neg; logicinst.c:27-72 not *)
Definition gen_unary (t : xinst) (dst src : option ope) (st : xst) : xres :=
  do dst <- deref dst; do src <- deref src;
  do d <- ope_real dst;
  let ss := xsuffix_of src in
  do (cs, r, u) <-
    match src with
    | IMMC_OPERAND_INT _ i =>
        Ok ([X64_INST X64_INST_MOVX (Some (X64_OPERAND_INT ss i)) (Some (X64_OPERAND_REG ss d))], d, iliteral_isunsigned i)
    | IMMC_OPERAND_REG _ _ => do r <- ope_real src; do u <- ope_unsigned src; Ok ([], r, u)
    | _ => Fatal
    end;
  finish (cs ++ [X64_INST t None (Some (X64_OPERAND_REG ss r))] ++ append_mov_code ss r (xsuffix_of dst) d u) st.

(** bitinst.c:58-119: the value moved into the destination comes from the first source's register (line 114) *)
Definition gen_setcmp (t : xinst) (dst fst_src snd_src : option ope) (st : xst) : xres :=
  do dst <- deref dst; do fst_src <- deref fst_src; do snd_src <- deref snd_src;
  do (cs, _, f) <- two_sources X64_INST_CMPX None fst_src snd_src;
  do d <- ope_real dst;
  finish (cs ++ [X64_INST t None (Some (X64_OPERAND_REG X64_SUFFIX_BYTE d))] ++
          append_mov_code X64_SUFFIX_BYTE f (xsuffix_of dst) d true) st.
(** bitinst.c:10-56 and ctrlinst.c:25-71: the instruction depends on the signedness of the first source *)
Definition by_sign (fst_src : option ope) (u s : xinst) : res xinst :=
  do f <- deref fst_src; do b <- ope_unsigned f; Ok (if b then u else s).

(** shrotinst.c:18-61 *)
Definition gen_shrot (t : xinst) (dst fst_src snd_src : option ope) (st : xst) : xres :=
  do dst <- deref dst; do fst_src <- deref fst_src; do snd_src <- deref snd_src;
  do f <- ope_real fst_src;
  match snd_src with
  | IMMC_OPERAND_INT _ _ =>
      do (cs, s, f) <- two_sources t None fst_src snd_src;
      do d <- ope_real dst;
      do du <- ope_unsigned dst;
      finish (cs ++ append_mov_code s f (xsuffix_of dst) d du) st
  | _ => Fatal
  end.

(** * x64gen/datainst.c *)
(** datainst.c:9-63 *)
Definition gen_load (dst src : option ope) (st : xst) : xres :=
  do dst <- deref dst; do src <- deref src;
  let ds := xsuffix_of dst in
  do d <- ope_real dst;
  let to_dst s := finish [X64_INST X64_INST_MOVX (Some s) (Some (X64_OPERAND_REG ds d))] st in
  match src with
  | IMMC_OPERAND_INT _ i => to_dst (X64_OPERAND_INT ds i)
  | IMMC_OPERAND_REG _ _ =>
      do r <- ope_real src; do u <- ope_unsigned src;
      finish (append_mov_code (xsuffix_of src) r ds d u) st
  | IMMC_OPERAND_PTR _ => do r <- ope_real src; to_dst (X64_OPERAND_PTR r)
  | IMMC_OPERAND_MEM z => to_dst (X64_OPERAND_MEM z)
  | IMMC_OPERAND_LABEL n => to_dst (X64_OPERAND_LABEL n)
  | _ => Fatal
  end.
(** datainst.c:65-96 *)
Definition gen_addr (dst src : option ope) (st : xst) : xres :=
  do dst <- deref dst; do src <- deref src;
  do d <- ope_real dst;
  let to_dst s := finish [X64_INST X64_INST_LEAX (Some s) (Some (X64_OPERAND_REG (xsuffix_of dst) d))] st in
  match src with
  | IMMC_OPERAND_MEM z => to_dst (X64_OPERAND_MEM z)
  | IMMC_OPERAND_LABEL n => to_dst (X64_OPERAND_LABEL n)
  | _ => Fatal
  end.

(** datainst.c:114-118, 152-156: the characters, read as signed chars and converted to unsigned long long,
    shifted and or-ed together *)
Fixpoint str_unit (s : list Z) (i : Z) (acc : Z) : Z :=
  match s with
  | [] => acc
  | c :: r => str_unit r (i + 1) (Z.lor (wrapu 64 (Z.shiftl (wrapu 64 c) (i * 8))) acc)
  end.
(** datainst.c:112-129: units of eight bytes *)
Fixpoint str_units (n : nat) (s : list Z) (off : Z) (tmp : xreg) : list x64 :=
  match n with
  | O => []
  | S n =>
      [X64_INST X64_INST_MOVABSX
         (Some (new_unsigned_int_x64ope X64_SUFFIX_QUAD IULongLong (str_unit (firstn 8 s) 0 0)))
         (Some (X64_OPERAND_REG X64_SUFFIX_QUAD tmp));
       X64_INST X64_INST_MOVX (Some (X64_OPERAND_REG X64_SUFFIX_QUAD tmp)) (Some (X64_OPERAND_MEM off))] ++
      str_units n (skipn 8 s) (off - 8) tmp
  end.
(** datainst.c:131-173: the remaining bytes *)
Definition str_rest (s : list Z) (off : Z) (tmp : xreg) : list x64 :=
  let n := Z.of_nat (length s) in
  let v := str_unit s 0 0 in
  let small sf := [X64_INST X64_INST_MOVX (Some (new_unsigned_int_x64ope sf IUInt v)) (Some (X64_OPERAND_MEM off))] in
  if n =? 0 then []
  else if n <=? 1 then small X64_SUFFIX_BYTE
  else if n <=? 2 then small X64_SUFFIX_WORD
  else if n <=? 4 then small X64_SUFFIX_LONG
  else
    [X64_INST X64_INST_MOVABSX (Some (new_unsigned_int_x64ope X64_SUFFIX_QUAD IULong v)) (Some (X64_OPERAND_REG X64_SUFFIX_QUAD tmp));
     X64_INST X64_INST_MOVX (Some (X64_OPERAND_REG X64_SUFFIX_QUAD tmp)) (Some (X64_OPERAND_MEM off))].
(** datainst.c:98-177 *)
Definition gen_str (dst src : option ope) (st : xst) : xres :=
  do dst <- deref dst; do src <- deref src;
  do tmp <- CALLER (NUM_CALLER_SAVED_REGS - 2);
  do s <- ope_sliteral src;
  let n := Nat.div (length s) 8 in
  let off := ope_mem dst in
  finish (str_units n s off tmp ++ str_rest (skipn (8 * n) s) (off - 8 * Z.of_nat n) tmp) st.

(** datainst.c:179-227 *)
Definition gen_store (dst src : option ope) (st : xst) : xres :=
  do dst <- deref dst; do src <- deref src;
  do d <- match dst with
          | IMMC_OPERAND_PTR _ => do r <- ope_real dst; Ok (X64_OPERAND_PTR r)
          | IMMC_OPERAND_MEM z => Ok (X64_OPERAND_MEM z)
          | IMMC_OPERAND_LABEL n => Ok (X64_OPERAND_LABEL n)
          | _ => Fatal
          end;
  do s <- match src with
          | IMMC_OPERAND_INT _ i => Ok (X64_OPERAND_INT (xsuffix_of src) i)
          | IMMC_OPERAND_REG _ _ => do r <- ope_real src; Ok (X64_OPERAND_REG (xsuffix_of src) r)
          | _ => Fatal
          end;
  finish [X64_INST X64_INST_MOVX (Some s) (Some d)] st.
(** datainst.c:229-263 *)
Definition gen_ldarg (dst src : option ope) (st : xst) : xres :=
  do dst <- deref dst; do src <- deref src;
  do r <- deref (ope_reg src);
  let s := xsuffix_of src in
  let off := ope_mem dst in
  if reg_id r <? NUM_ARG_REGS then
    do a <- ARG_REG (reg_id r);
    finish [X64_INST X64_INST_MOVX (Some (X64_OPERAND_REG s a)) (Some (X64_OPERAND_MEM off))] st
  else
    do tmp <- CALLER (NUM_CALLER_SAVED_REGS - 2);
    finish [X64_INST X64_INST_MOVX (Some (X64_OPERAND_MEM (- (reg_id r - NUM_ARG_REGS + 1) * 8 - 8))) (Some (X64_OPERAND_REG s tmp));
            X64_INST X64_INST_MOVX (Some (X64_OPERAND_REG s tmp)) (Some (X64_OPERAND_MEM off))] st.
(** datainst.c:265-291 *)
Definition gen_starg (src : option ope) (st : xst) : xres :=
  do src <- deref src;
  match src with
  | IMMC_OPERAND_INT _ i => finish [X64_INST X64_INST_PUSHX (Some (X64_OPERAND_INT X64_SUFFIX_QUAD i)) None] st
  | IMMC_OPERAND_REG _ _ =>
      do r <- ope_real src; finish [X64_INST X64_INST_PUSHX (Some (X64_OPERAND_REG X64_SUFFIX_QUAD r)) None] st
  | _ => Fatal
  end.
(** datainst.c:293-325 *)
Definition gen_stret (src : option ope) (st : xst) : xres :=
  do src <- deref src;
  let s := xsuffix_of src in
  match src with
  | IMMC_OPERAND_INT _ i =>
      finish [X64_INST X64_INST_MOVX (Some (X64_OPERAND_INT s i)) (Some (X64_OPERAND_REG s AX_REG_ID))] st
  | IMMC_OPERAND_REG _ _ =>
      do r <- ope_real src; do u <- ope_unsigned src; finish (append_mov_code s r s AX_REG_ID u) st
  | _ => Fatal
  end.

(** * x64gen/ctrlinst.c *)
(** ctrlinst.c:11-23 *)
Definition gen_jmp (dst : option ope) (st : xst) : xres :=
  do dst <- deref dst; do n <- ope_label dst;
  finish [X64_INST X64_INST_JMP None (Some (X64_OPERAND_JLABEL n))] st.
(** ctrlinst.c:73-128 *)
Definition gen_jcmp (t : xinst) (dst fst_src snd_src : option ope) (st : xst) : xres :=
  do fst_src <- deref fst_src; do snd_src <- deref snd_src;
  do (cs, _, _) <- two_sources X64_INST_CMPX None fst_src snd_src;
  do dst <- deref dst; do n <- ope_label dst;
  finish (cs ++ [X64_INST t None (Some (X64_OPERAND_JLABEL n))]) st.

(** ctrlinst.c:139-154 and 195-209: which caller-saved register is kept in which callee-saved register.
    The comparison reads the destination's register for every live register. *)
Fixpoint evacuations (l : list Z) (dst : option ope) (count : Z) : res (list (xreg * xreg)) :=
  match l with
  | [] => Ok []
  | i :: r =>
      do d <- deref dst; do dr <- deref (ope_reg d);
      if i =? reg_id dr then evacuations r dst count
      else
        do callee <- CALLEE count;
        do caller <- CALLER i;
        do t <- evacuations r dst (count + 1);
        Ok ((caller, callee) :: t)
  end.
(** ctrlinst.c:130-228 *)
Definition gen_call (dst fst_src snd_src : option ope) (st : xst) : xres :=
  do fst_src <- deref fst_src; do snd_src <- deref snd_src;
  do set <- create_alive_reg_induces_set (x_lives st);
  do ev <- evacuations (set_items set) dst 0;
  let save := flat_map (fun p => append_mov_code X64_SUFFIX_QUAD (fst p) X64_SUFFIX_QUAD (snd p) false) ev in
  do n <- ope_count snd_src;
  do (keep, callee) <-
    match fst_src with
    | IMMC_OPERAND_PTR _ =>
        do r <- ope_real fst_src;
        do args <- create_arg_regs_set n;
        do clash <- icontains args (xreg_num r);
        if clash then
          do t <- CALLER (NUM_CALLER_SAVED_REGS - 2);
          Ok (append_mov_code X64_SUFFIX_QUAD r X64_SUFFIX_QUAD t false, X64_OPERAND_JPTR t)
        else Ok ([], X64_OPERAND_JPTR r)
    | IMMC_OPERAND_LABEL l => Ok ([], X64_OPERAND_JLABEL l)
    | _ => Fatal
    end;
  let pops := List.map (fun r => X64_INST X64_INST_POPX None (Some (X64_OPERAND_REG X64_SUFFIX_QUAD r))) (used_arg_regs n) in
  let zero := [X64_INST X64_INST_MOVX (Some (new_signed_int_x64ope X64_SUFFIX_QUAD IInt 0)) (Some (X64_OPERAND_REG X64_SUFFIX_QUAD AX_REG_ID))] in
  let call := [X64_INST X64_INST_CALL (Some callee) None] in
  let restore := flat_map (fun p => append_mov_code X64_SUFFIX_QUAD (snd p) X64_SUFFIX_QUAD (fst p) false) ev in
  do move <- match dst with
             | None => Ok []
             | Some d =>
                 do r <- ope_real d; do u <- ope_unsigned d;
                 Ok (append_mov_code (xsuffix_of d) AX_REG_ID (xsuffix_of d) r u)
             end;
  finish (save ++ keep ++ pops ++ zero ++ call ++ restore ++ move)
         (mkxst (x_lives st) (Z.max (x_evac st) (Z.of_nat (length ev)))).

Definition bp := X64_OPERAND_REG X64_SUFFIX_QUAD BP_REG_ID.
Definition sp := X64_OPERAND_REG X64_SUFFIX_QUAD SP_REG_ID.
Definition imm (v : Z) := new_signed_int_x64ope X64_SUFFIX_QUAD IInt v.
(** ctrlinst.c:230-255 *)
Definition gen_enter (src : option ope) (st : xst) : xres :=
  do src <- deref src; do n <- ope_count src; do size <- min_multiple_of n 16;
  finish ([X64_INST X64_INST_PUSHX (Some bp) None; X64_INST X64_INST_MOVX (Some sp) (Some bp)] ++
          (if size >? 0 then [X64_INST X64_INST_SUBX (Some (imm size)) (Some sp)] else [])) st.
(** ctrlinst.c:257-276 *)
Definition gen_leave (src : option ope) (st : xst) : xres :=
  do src <- deref src; do n <- ope_count src; do size <- min_multiple_of n 16;
  finish ((if size >? 0 then [X64_INST X64_INST_ADDX (Some (imm size)) (Some sp)] else []) ++
          [X64_INST X64_INST_POPX None (Some bp); X64_INST X64_INST_RET None None]) st.
(** ctrlinst.c:278-294 *)
Definition gen_prep (src : option ope) (st : xst) : xres :=
  do src <- deref src; do n <- ope_count src;
  finish (if (n >? NUM_ARG_REGS) && (Z.rem n 2 =? 1) then [X64_INST X64_INST_SUBX (Some (imm 8)) (Some sp)] else []) st.
(** ctrlinst.c:296-313 *)
Definition gen_clean (src : option ope) (st : xst) : xres :=
  do src <- deref src; do n <- ope_count src;
  finish (if n >? NUM_ARG_REGS
          then [X64_INST X64_INST_ADDX (Some (imm (Z.quot (n - NUM_ARG_REGS + 1) 2 * 16))) (Some sp)] else []) st.

(** * x64gen/inst.c:12-94 *)
Definition gen_inst_x64code (c : immc) (st : xst) : xres :=
  match c with
  | IMMC_INST t d f s =>
      match t with
      | IMMC_INST_LOAD => gen_load d f st
      | IMMC_INST_ADDR => gen_addr d f st
      | IMMC_INST_STR => gen_str d f st
      | IMMC_INST_STORE => gen_store d f st
      | IMMC_INST_LDARG => gen_ldarg d f st
      | IMMC_INST_STARG => gen_starg f st
      | IMMC_INST_STRET => gen_stret f st
      | IMMC_INST_ADD => gen_binary X64_INST_ADDX None d f s st
      | IMMC_INST_SUB => gen_binary X64_INST_SUBX None d f s st
      | IMMC_INST_MUL => gen_binary X64_INST_IMULX (Some AX_REG_ID) d f s st
      | IMMC_INST_DIV => gen_divisional AX_REG_ID d f s st
      | IMMC_INST_MOD => gen_divisional DX_REG_ID d f s st
      | IMMC_INST_NEG => gen_unary X64_INST_NEGX d f st
      | IMMC_INST_AND => gen_binary X64_INST_ANDX None d f s st
      | IMMC_INST_NOT => gen_unary X64_INST_NOTX d f st
      | IMMC_INST_OR => gen_binary X64_INST_ORX None d f s st
      | IMMC_INST_XOR => gen_binary X64_INST_XORX None d f s st
      | IMMC_INST_SAL => gen_shrot X64_INST_SALX d f s st
      | IMMC_INST_SAR => gen_shrot X64_INST_SARX d f s st
      | IMMC_INST_SETEQ => gen_setcmp X64_INST_SETE d f s st
      | IMMC_INST_SETNEQ => gen_setcmp X64_INST_SETNE d f s st
      | IMMC_INST_SETGT => do i <- by_sign f X64_INST_SETA X64_INST_SETG; gen_setcmp i d f s st
      | IMMC_INST_SETGEQ => do i <- by_sign f X64_INST_SETAE X64_INST_SETGE; gen_setcmp i d f s st
      | IMMC_INST_SETLT => do i <- by_sign f X64_INST_SETB X64_INST_SETL; gen_setcmp i d f s st
      | IMMC_INST_SETLEQ => do i <- by_sign f X64_INST_SETBE X64_INST_SETLE; gen_setcmp i d f s st
      | IMMC_INST_JMP => gen_jmp d st
      | IMMC_INST_JEQ => gen_jcmp X64_INST_JE d f s st
      | IMMC_INST_JNEQ => gen_jcmp X64_INST_JNE d f s st
      | IMMC_INST_JGT => do i <- by_sign f X64_INST_JA X64_INST_JG; gen_jcmp i d f s st
      | IMMC_INST_JGEQ => do i <- by_sign f X64_INST_JAE X64_INST_JGE; gen_jcmp i d f s st
      | IMMC_INST_JLT => do i <- by_sign f X64_INST_JB X64_INST_JL; gen_jcmp i d f s st
      | IMMC_INST_JLEQ => do i <- by_sign f X64_INST_JBE X64_INST_JLE; gen_jcmp i d f s st
      | IMMC_INST_CALL => gen_call d f s st
      | IMMC_INST_ENTER => gen_enter f st
      | IMMC_INST_LEAVE => gen_leave f st
      | IMMC_INST_PREP => gen_prep f st
      | IMMC_INST_CLEAN => gen_clean f st
      end
  | _ => UB
  end.

(** * x64gen/data.c:5-45, label.c:8-43 *)
Definition gen_data_x64code (c : immc) (st : xst) : xres :=
  match c with
  | IMMC_INT_DATA t i =>
      do t <- match t with
              | IMMC_DATA_BYTE => Ok X64_DATA_BYTE | IMMC_DATA_WORD => Ok X64_DATA_WORD
              | IMMC_DATA_LONG => Ok X64_DATA_LONG | IMMC_DATA_QUAD => Ok X64_DATA_QUAD
              | IMMC_DATA_ZERO => Ok X64_DATA_ZERO | IMMC_DATA_STR => UB
              end;
      finish [X64_INT_DATA t i] st
  | IMMC_STR_DATA IMMC_DATA_STR s => finish [X64_STR_DATA X64_DATA_STR s] st
  | _ => UB
  end.
Definition gen_label_x64code (c : immc) (st : xst) : xres :=
  match c with
  | IMMC_LABEL t v n =>
      finish [X64_LABEL
                match t with
                | IMMC_LABEL_FUNCTION => X64_LABEL_FUNCTION
                | IMMC_LABEL_VARIABLE => X64_LABEL_VARIABLE
                | IMMC_LABEL_NORMAL => X64_LABEL_NORMAL
                end
                match v with
                | IMMC_VIS_GLOBAL => X64_VIS_GLOBAL
                | IMMC_VIS_LOCAL => X64_VIS_LOCAL
                | IMMC_VIS_NONE => X64_VIS_NONE
                end n] st
  | _ => UB
  end.

(** * x64gen/x64gen.c *)
(** x64gen.c:70-92: the body of a function, up to the LEAVE, which is left in the rest *)
Fixpoint gen_body_x64code (l : list immc) (st : xst) : res (list x64 * list immc * xst) :=
  match l with
  | [] => UB
  | c :: r =>
      match c with
      | IMMC_INST IMMC_INST_LEAVE _ _ _ => Ok ([], l, st)
      | IMMC_INST _ _ _ _ | IMMC_LABEL _ _ _ =>
          do (cs, st) <- match c with IMMC_LABEL _ _ _ => gen_label_x64code c st | _ => gen_inst_x64code c st end;
          do (ds, r, st) <- gen_body_x64code r st;
          Ok (cs ++ ds, r, st)
      | _ => Fatal
      end
  end.
(** x64gen.c:94-98, 109-112: the callee-saved registers pushed and popped *)
Fixpoint saved_regs (n : nat) (i : Z) : res (list xreg) :=
  match n with
  | O => Ok []
  | S n => do r <- CALLEE i; do t <- saved_regs n (i + 1); Ok (r :: t)
  end.
(** x64gen.c:54-128 *)
Definition gen_function_x64code (l : list immc) (st : xst) : res (list x64 * list immc * xst) :=
  match l with
  | lab :: enter :: r =>
      do (label, st) <- gen_label_x64code lab (mkxst (x_lives st) 0);
      do (head, st) <- gen_inst_x64code enter st;
      do (body, r, st) <- gen_body_x64code r st;
      match r with
      | leave :: r =>
          do regs <- saved_regs (Z.to_nat (x_evac st)) 0;
          let odd := Z.rem (x_evac st) 2 =? 1 in
          let pushes := List.map (fun r => X64_INST X64_INST_PUSHX (Some (X64_OPERAND_REG X64_SUFFIX_QUAD r)) None) regs in
          let pops := List.map (fun r => X64_INST X64_INST_POPX None (Some (X64_OPERAND_REG X64_SUFFIX_QUAD r))) (rev regs) in
          let down := if odd then [X64_INST X64_INST_SUBX (Some (imm 8)) (Some sp)] else [] in
          let up := if odd then [X64_INST X64_INST_ADDX (Some (imm 8)) (Some sp)] else [] in
          do (tail, st) <- gen_inst_x64code leave st;
          Ok (label ++ (head ++ pushes ++ down) ++ body ++ (up ++ pops ++ tail), r, mkxst (x_lives st) 0)
      | [] => UB
      end
  | _ => UB
  end.
(** x64gen.c:137-155 *)
Fixpoint gen_datas_x64code (l : list immc) (st : xst) : res (list x64 * list immc * xst) :=
  match l with
  | [] => Ok ([], [], st)
  | c :: r =>
      if is_external_label c then Ok ([], l, st)
      else
        match c with
        | IMMC_INT_DATA _ _ | IMMC_STR_DATA _ _ =>
            do (cs, st) <- gen_data_x64code c st;
            do (ds, r, st) <- gen_datas_x64code r st;
            Ok (cs ++ ds, r, st)
        | _ => Fatal
        end
  end.
(** x64gen.c:130-158 *)
Definition gen_variable_x64code (l : list immc) (st : xst) : res (list x64 * list immc * xst) :=
  match l with
  | lab :: r =>
      do (label, st) <- gen_label_x64code lab st;
      do (ds, r, st) <- gen_datas_x64code r st;
      Ok (label ++ ds, r, st)
  | [] => UB
  end.
(** x64gen.c:24-52; each round consumes at least a label, so the length of the code is enough fuel *)
Fixpoint gen_externals_x64code (fuel : nat) (l : list immc) (st : xst) : res (list x64) :=
  match fuel with
  | O => Fuel
  | S fuel =>
      match l with
      | [] => Ok []
      | IMMC_LABEL t _ _ :: _ =>
          do (cs, r, st) <- match t with
                            | IMMC_LABEL_FUNCTION => gen_function_x64code l st
                            | IMMC_LABEL_VARIABLE => gen_variable_x64code l st
                            | IMMC_LABEL_NORMAL => Fatal
                            end;
          do ds <- gen_externals_x64code fuel r st;
          Ok (cs ++ ds)
      | _ => UB
      end
  end.
Definition x64gen (l : list immc) (lives : list liveseq) : res (list x64) :=
  gen_externals_x64code (S (length l)) l (mkxst lives 0).
