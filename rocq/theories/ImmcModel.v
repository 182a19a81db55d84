(** Model of src/immc: the intermediate code ("immediate code") and its printing. *)
From Verif Require Export SrtModel.
Open Scope Z_scope.

(** suffix.h:4-10 *)
Inductive suffix := IMMC_SUFFIX_NONE | IMMC_SUFFIX_BYTE | IMMC_SUFFIX_WORD | IMMC_SUFFIX_LONG | IMMC_SUFFIX_QUAD.
Scheme Equality for suffix.
(** suffix.c:3-16 *)
Definition immcsuffix_get (nbytes : Z) : suffix :=
  if nbytes =? 1 then IMMC_SUFFIX_BYTE
  else if nbytes =? 2 then IMMC_SUFFIX_WORD
  else if nbytes =? 4 then IMMC_SUFFIX_LONG
  else if nbytes =? 8 then IMMC_SUFFIX_QUAD
  else IMMC_SUFFIX_NONE.
(** suffix.c:18-31 *)
Definition immcsuffix_tonbytes (s : suffix) : Z :=
  match s with
  | IMMC_SUFFIX_BYTE => 1
  | IMMC_SUFFIX_WORD => 2
  | IMMC_SUFFIX_LONG => 4
  | IMMC_SUFFIX_QUAD => 8
  | IMMC_SUFFIX_NONE => 0
  end.
(** the enum order of suffix.h:4-10 *)
Definition suffix_num (s : suffix) : Z :=
  match s with
  | IMMC_SUFFIX_NONE => 0
  | IMMC_SUFFIX_BYTE => 1
  | IMMC_SUFFIX_WORD => 2
  | IMMC_SUFFIX_LONG => 3
  | IMMC_SUFFIX_QUAD => 4
  end.
(** suffix.c:48-50 *)
Definition immcsuffix_greater (a b : suffix) : suffix := if suffix_num a >=? suffix_num b then a else b.

(** register.h:1-4 *)
Record ireg := mkireg { reg_id : Z; reg_unsigned : bool }.

(** ope.h:9-27; the fields a constructor of ope.c:11-102 leaves at their defaults are not repeated.
    [IMMC_OPERAND_PTR]: suffix QUAD, signed register (ope.c:53-58). *)
Inductive ope :=
| IMMC_OPERAND_ARG (s : suffix) (r : ireg)
| IMMC_OPERAND_REG (s : suffix) (r : ireg)
| IMMC_OPERAND_PTR (r : ireg)
| IMMC_OPERAND_MEM (offset : Z)
| IMMC_OPERAND_LABEL (n : name)
| IMMC_OPERAND_INT (s : suffix) (i : iliteral)
| IMMC_OPERAND_STR (s : sliteral).
(** immcope->suffix and immcope->reg *)
Definition ope_suffix (o : ope) : suffix :=
  match o with
  | IMMC_OPERAND_ARG s _ | IMMC_OPERAND_REG s _ | IMMC_OPERAND_INT s _ => s
  | IMMC_OPERAND_PTR _ => IMMC_SUFFIX_QUAD
  | _ => IMMC_SUFFIX_NONE
  end.
Definition ope_reg (o : ope) : option ireg :=
  match o with
  | IMMC_OPERAND_ARG _ r | IMMC_OPERAND_REG _ r | IMMC_OPERAND_PTR r => Some r
  | _ => None
  end.

(** util.c:7-21 *)
Definition create_label_name (id : Z) : name := bytes ".L" ++ print_signed id.
Definition create_sliteral_label (id : Z) : name := bytes ".SL" ++ print_signed id.

(** ope.c:11-102 *)
Definition new_signed_arg_immcope s id := IMMC_OPERAND_ARG s (mkireg id false).
Definition new_unsigned_arg_immcope s id := IMMC_OPERAND_ARG s (mkireg id true).
Definition new_reg_immcope s r := IMMC_OPERAND_REG s r.
Definition new_signed_reg_immcope s id := IMMC_OPERAND_REG s (mkireg id false).
Definition new_unsigned_reg_immcope s id := IMMC_OPERAND_REG s (mkireg id true).
Definition new_ptr_immcope id := IMMC_OPERAND_PTR (mkireg id false).
Definition new_mem_immcope off := IMMC_OPERAND_MEM off.
Definition new_label_immcope n := IMMC_OPERAND_LABEL n.
Definition new_label_immcope_from_id id := IMMC_OPERAND_LABEL (create_label_name id).
Definition new_int_immcope s i := IMMC_OPERAND_INT s i.
Definition new_signed_int_immcope s t v := IMMC_OPERAND_INT s (new_signed t v).
Definition new_unsigned_int_immcope s t v := IMMC_OPERAND_INT s (new_unsigned t v).
Definition new_str_immcope s := IMMC_OPERAND_STR s.

(** inst.h:6-205 *)
Inductive insttype :=
| IMMC_INST_LOAD | IMMC_INST_ADDR | IMMC_INST_STR | IMMC_INST_STORE | IMMC_INST_LDARG | IMMC_INST_STARG | IMMC_INST_STRET
| IMMC_INST_ADD | IMMC_INST_SUB | IMMC_INST_MUL | IMMC_INST_DIV | IMMC_INST_MOD | IMMC_INST_NEG
| IMMC_INST_AND | IMMC_INST_NOT | IMMC_INST_OR | IMMC_INST_XOR
| IMMC_INST_SAL | IMMC_INST_SAR
| IMMC_INST_SETEQ | IMMC_INST_SETNEQ | IMMC_INST_SETLT | IMMC_INST_SETGT | IMMC_INST_SETLEQ | IMMC_INST_SETGEQ
| IMMC_INST_JMP | IMMC_INST_JEQ | IMMC_INST_JNEQ | IMMC_INST_JGT | IMMC_INST_JGEQ | IMMC_INST_JLT | IMMC_INST_JLEQ
| IMMC_INST_CALL | IMMC_INST_ENTER | IMMC_INST_LEAVE
| IMMC_INST_PREP | IMMC_INST_CLEAN.
Scheme Equality for insttype.

(** label.h:4-20, data.h:7-20, immc.h:9-20 *)
Inductive labeltype := IMMC_LABEL_FUNCTION | IMMC_LABEL_VARIABLE | IMMC_LABEL_NORMAL.
Inductive visibility := IMMC_VIS_NONE | IMMC_VIS_LOCAL | IMMC_VIS_GLOBAL.
Inductive datatype := IMMC_DATA_BYTE | IMMC_DATA_WORD | IMMC_DATA_LONG | IMMC_DATA_QUAD | IMMC_DATA_ZERO | IMMC_DATA_STR.
Inductive immc :=
| IMMC_INST (t : insttype) (dst fst_src snd_src : option ope)
| IMMC_INT_DATA (t : datatype) (i : iliteral)
| IMMC_STR_DATA (t : datatype) (s : sliteral)
| IMMC_LABEL (t : labeltype) (v : visibility) (n : name).
(** immc.c:16-44 *)
Definition new_inst_immc t d f s := IMMC_INST t d f s.
Definition new_int_data_immc t i := IMMC_INT_DATA t i.
Definition new_str_data_immc t s := IMMC_STR_DATA t s.
Definition new_label_immc t v n := IMMC_LABEL t v n.
Definition new_label_immc_from_id t v id := IMMC_LABEL t v (create_label_name id).
(** immc.c:75-77: JMP, JEQ, JNEQ, JGT and JGEQ; in the enum JLT and JLEQ come after JGEQ *)
Definition immc_isjumpinst (c : immc) : bool :=
  match c with
  | IMMC_INST (IMMC_INST_JMP | IMMC_INST_JEQ | IMMC_INST_JNEQ | IMMC_INST_JGT | IMMC_INST_JGEQ) _ _ _ => true
  | _ => false
  end.
