(** Model of src/immcgen: code generation, SRT to intermediate code. *)
From Verif Require Export SymtabModel ImmcModel.
Open Scope Z_scope.

(** immcgen.h:10-25 Immcgen. [initialized_dtype] is an argument of the model functions: it is only
    read below the assignment that sets it. *)
Record gst := mkgst {
  g_syms : symtab;
  g_tags : tagtab;
  g_suffix : suffix;
  g_reg : option ireg;
  g_next : Z;
  g_off : Z;
  g_cont : Z;
  g_brk : Z;
  g_ret : Z;
  g_cases : option (list (Z * iliteral));
  g_default : Z;
  g_label : Z
}.
(** immcgen.c:10-26; default_label_id is not initialised there, and only read under a switch *)
Definition new_immcgen : gst :=
  mkgst new_symtab new_tagtab IMMC_SUFFIX_NONE None (-1) (-1) (-1) (-1) (-1) None (-1) (-1).

Definition gset_syms x s := mkgst x (g_tags s) (g_suffix s) (g_reg s) (g_next s) (g_off s) (g_cont s) (g_brk s) (g_ret s) (g_cases s) (g_default s) (g_label s).
Definition gset_tags x s := mkgst (g_syms s) x (g_suffix s) (g_reg s) (g_next s) (g_off s) (g_cont s) (g_brk s) (g_ret s) (g_cases s) (g_default s) (g_label s).
Definition gset_reg sf r s := mkgst (g_syms s) (g_tags s) sf r (g_next s) (g_off s) (g_cont s) (g_brk s) (g_ret s) (g_cases s) (g_default s) (g_label s).
Definition gset_next x s := mkgst (g_syms s) (g_tags s) (g_suffix s) (g_reg s) x (g_off s) (g_cont s) (g_brk s) (g_ret s) (g_cases s) (g_default s) (g_label s).
Definition gset_off x s := mkgst (g_syms s) (g_tags s) (g_suffix s) (g_reg s) (g_next s) x (g_cont s) (g_brk s) (g_ret s) (g_cases s) (g_default s) (g_label s).
Definition gset_cont x s := mkgst (g_syms s) (g_tags s) (g_suffix s) (g_reg s) (g_next s) (g_off s) x (g_brk s) (g_ret s) (g_cases s) (g_default s) (g_label s).
Definition gset_brk x s := mkgst (g_syms s) (g_tags s) (g_suffix s) (g_reg s) (g_next s) (g_off s) (g_cont s) x (g_ret s) (g_cases s) (g_default s) (g_label s).
Definition gset_ret x s := mkgst (g_syms s) (g_tags s) (g_suffix s) (g_reg s) (g_next s) (g_off s) (g_cont s) (g_brk s) x (g_cases s) (g_default s) (g_label s).
Definition gset_cases x s := mkgst (g_syms s) (g_tags s) (g_suffix s) (g_reg s) (g_next s) (g_off s) (g_cont s) (g_brk s) (g_ret s) x (g_default s) (g_label s).
Definition gset_default x s := mkgst (g_syms s) (g_tags s) (g_suffix s) (g_reg s) (g_next s) (g_off s) (g_cont s) (g_brk s) (g_ret s) (g_cases s) x (g_label s).
Definition gset_label x s := mkgst (g_syms s) (g_tags s) (g_suffix s) (g_reg s) (g_next s) (g_off s) (g_cont s) (g_brk s) (g_ret s) (g_cases s) (g_default s) x.
(** `++immcgen->next_reg_id` and `++immcgen->label_id` *)
Definition next_reg (s : gst) : Z * gst := let i := g_next s + 1 in (i, gset_next i s).
Definition next_label (s : gst) : Z * gst := let i := g_label s + 1 in (i, gset_label i s).

(** A generator appends codes and updates the state. *)
Definition gres := res (list immc * gst).
Definition gchild (s : srt) (i : nat) : res srt := deref (nth_error (srt_children s) i).
(** srt->ident_name, srt->sliteral_id, srt->sliteral (an identifier read as NULL is never compared) *)
Definition srt_name (s : srt) : res name := match srt_payload s with SPName n => Ok n | _ => UB end.
Definition srt_strid (s : srt) : res Z := match srt_payload s with SPStrId i => Ok i | _ => UB end.
Definition srt_sliteral (s : srt) : res sliteral := match srt_payload s with SPStr l => Ok l | _ => UB end.
Definition inst3 t d f s := IMMC_INST t (Some d) (Some f) (Some s).
Definition inst2 t d f := IMMC_INST t (Some d) (Some f) None.
Definition jmp_to id := IMMC_INST IMMC_INST_JMP (Some (new_label_immcope_from_id id)) None None.
Definition normal_label id := new_label_immc_from_id IMMC_LABEL_NORMAL IMMC_VIS_NONE id.

(** util.c:69-88 get_cjmp_inst_type *)
Definition get_cjmp_inst_type (t : srttype) (jmp_true : bool) : option insttype :=
  match t with
  | SRT_EQUAL_EXPR => Some (if jmp_true then IMMC_INST_JEQ else IMMC_INST_JNEQ)
  | SRT_NEQUAL_EXPR => Some (if jmp_true then IMMC_INST_JNEQ else IMMC_INST_JEQ)
  | SRT_LESS_EXPR => Some (if jmp_true then IMMC_INST_JLT else IMMC_INST_JGEQ)
  | SRT_GREATER_EXPR => Some (if jmp_true then IMMC_INST_JGT else IMMC_INST_JLEQ)
  | SRT_LESSEQ_EXPR => Some (if jmp_true then IMMC_INST_JLEQ else IMMC_INST_JGT)
  | SRT_GREATEREQ_EXPR => Some (if jmp_true then IMMC_INST_JGEQ else IMMC_INST_JLT)
  | _ => None
  end.
(** util.c:90-104 *)
Definition update_non_void_expr_register (dst : ope) (st : gst) : res gst :=
  do r <- deref (ope_reg dst); Ok (gset_reg (ope_suffix dst) (Some r) st).
Definition update_void_expr_register (st : gst) : gst := gset_reg IMMC_SUFFIX_NONE None st.
(** util.c:194-207 create_dtyped_iliteral *)
Definition create_dtyped_iliteral (d : dtype) (i : iliteral) : iliteral :=
  let rank := dtype_scalar_rank d in
  if dtype_isunsignedinteger d
  then new_unsigned (iltype_get rank true) (if iliteral_isunsigned i then uval i else wrapu 64 (sval i))
  else new_signed (iltype_get rank false) (if iliteral_isunsigned i then wraps 64 (uval i) else sval i).
(** util.c:187-192 create_dest_reg_immcope; [srt->dtype] *)
Definition create_dest_reg (s : srt) (st : gst) : res (ope * gst) :=
  do d <- dty s;
  let (id, st) := next_reg st in
  Ok (new_reg_immcope (immcsuffix_get (dtype_nbytes d)) (mkireg id (dtype_isunsignedinteger d)), st).
(** util.c:176-181 and its copies: the operand of a named variable (the memory offset of an integer
    symbol is -1, symbol.c:30-38) *)
Definition ident_ope (st : gst) (s : srt) : res ope :=
  do n <- srt_name s;
  do y <- deref (sym_search (g_syms st) n);
  match sy_kind y with
  | SYMBOL_LABEL => Ok (new_label_immcope n)
  | SYMBOL_MEM off => Ok (new_mem_immcope off)
  | SYMBOL_INT _ => Ok (new_mem_immcope (-1))
  end.

(** `while (srt->type == SRT_CAST_EXPR) srt = vector_at(srt->children, 0);` (util.c:114-118,
    declaration.c:266-268) *)
Fixpoint strip_casts (s : srt) : res srt :=
  match s with
  | Srt SRT_CAST_EXPR _ _ (c :: _) => strip_casts c
  | Srt SRT_CAST_EXPR _ _ [] => UB
  | _ => Ok s
  end.

Section Gen.
(** immcgen_generate_immcode on a child; the first argument is initialized_dtype *)
Variable gen : option dtype -> srt -> gst -> gres.

(** util.c:25-34 append_child_immcode *)
Definition append_child (s : srt) (i : nat) (st : gst) : gres := do c <- gchild s i; gen None c st.
(** util.c:11-23 append_children_immcode *)
Fixpoint append_list (l : list srt) (st : gst) : gres :=
  match l with
  | [] => Ok ([], st)
  | x :: r => do (c, st) <- gen None x st; do (cs, st) <- append_list r st; Ok (c ++ cs, st)
  end.

(** util.c:106-148 gen_child_int_immcope *)
Definition gen_child_int (s : srt) (i : nat) (st : gst) : res (list immc * ope * gst) :=
  do c <- gchild s i;
  do cast_dtype <- (if srt_is c SRT_CAST_EXPR then do d <- dty c; Ok (Some d) else Ok None);
  do e <- strip_casts c;
  if srt_is e SRT_ILITERAL_EXPR then
    do d <- match cast_dtype with Some d => Ok d | None => dty e end;
    do l <- srt_iliteral e;
    Ok ([], new_int_immcope (immcsuffix_get (dtype_nbytes d)) (create_dtyped_iliteral d l), st)
  else
    do (cs, st) <- gen None e st;
    do r <- deref (g_reg st);
    let src := new_reg_immcope (g_suffix st) r in
    match cast_dtype with
    | None => Ok (cs, src, st)
    | Some d =>
        let (id, st) := next_reg st in
        let dst := new_reg_immcope (immcsuffix_get (dtype_nbytes d)) (mkireg id (dtype_isunsignedinteger d)) in
        Ok (cs ++ [inst2 IMMC_INST_LOAD dst src], dst, st)
    end.
(** util.c:150-162 gen_child_reg_immcope *)
Definition gen_child_reg (s : srt) (i : nat) (st : gst) : res (list immc * ope * gst) :=
  do (cs, src, st) <- gen_child_int s i st;
  match src with
  | IMMC_OPERAND_REG _ _ => Ok (cs, src, st)
  | IMMC_OPERAND_INT sf l =>
      let (id, st) := next_reg st in
      let dst := new_reg_immcope sf (mkireg id (iliteral_isunsigned l)) in
      Ok (cs ++ [inst2 IMMC_INST_LOAD dst src], dst, st)
  | _ => UB
  end.
(** util.c:164-185 gen_child_ptr_immcope *)
Definition gen_child_ptr (s : srt) (i : nat) (st : gst) : res (list immc * ope * gst) :=
  do c <- gchild s i;
  do v <- (if srt_is c SRT_ADDR_EXPR then do e <- gchild c 0; Ok (if srt_is e SRT_IDENT_EXPR then Some e else None) else Ok None);
  match v with
  | Some e => do o <- ident_ope st e; Ok ([], o, st)
  | None => do (cs, st) <- gen None c st; Ok (cs, new_ptr_immcope (g_next st), st)
  end.
(** util.c:44-67 append_child_jmp_cond_immcode: the codes before the jump, and the jump, whose label
    statement.c:118-122 and 151-155 may still change *)
Definition gen_jmp_cond (s : srt) (i : nat) (jmp_true : bool) (st : gst) : res (list immc * (ope -> immc) * gst) :=
  do c <- gchild s i;
  match get_cjmp_inst_type (srt_type c) jmp_true with
  | None =>
      do (cs, f, st) <- gen_child_reg s i st;
      let z := new_signed_int_immcope (ope_suffix f) IInt 0 in
      Ok (cs, fun l => inst3 (if jmp_true then IMMC_INST_JNEQ else IMMC_INST_JEQ) l f z, st)
  | Some t =>
      do (cs1, f, st) <- gen_child_reg c 0 st;
      do (cs2, g, st) <- gen_child_int c 1 st;
      Ok (cs1 ++ cs2, fun l => inst3 t l f g, st)
  end.
Definition append_jmp (s : srt) (i : nat) (jmp_true : bool) (label : Z) (st : gst) : gres :=
  do (cs, j, st) <- gen_jmp_cond s i jmp_true st;
  Ok (cs ++ [j (new_label_immcope_from_id label)], st).

(** * expression.c *)
(** expression.c:11-21 *)
Definition gen_assignment_expr (s : srt) (st : gst) : gres :=
  do (c1, src, st) <- gen_child_reg s 1 st;
  do (c2, dst, st) <- gen_child_ptr s 0 st;
  do st <- update_non_void_expr_register src st;
  Ok (c1 ++ c2 ++ [inst2 IMMC_INST_STORE dst src], st).
(** expression.c:23-55 *)
Definition gen_conditional_expr (s : srt) (st : gst) : gres :=
  let (lf, st) := next_label st in
  let (le, st) := next_label st in
  do (c1, st) <- append_jmp s 0 false lf st;
  do (dst, st) <- create_dest_reg s st;
  do (c2, src1, st) <- gen_child_reg s 1 st;
  do (c3, src2, st) <- gen_child_reg s 2 st;
  do st <- update_non_void_expr_register dst st;
  Ok (c1 ++ c2 ++ [inst2 IMMC_INST_LOAD dst src1; jmp_to le; normal_label lf]
      ++ c3 ++ [inst2 IMMC_INST_LOAD dst src2; normal_label le], st).
(** expression.c:57-92 ([or] true) and 94-129 *)
Definition gen_logical_expr (or : bool) (s : srt) (st : gst) : gres :=
  let (l1, st) := next_label st in
  let (le, st) := next_label st in
  do (c1, st) <- append_jmp s 0 or l1 st;
  do (c2, st) <- append_jmp s 1 or l1 st;
  do (dst, st) <- create_dest_reg s st;
  let v b := new_signed_int_immcope (ope_suffix dst) IInt (if b : bool then 1 else 0) in
  do st <- update_non_void_expr_register dst st;
  Ok (c1 ++ c2 ++ [inst2 IMMC_INST_LOAD dst (v (negb or)); jmp_to le; normal_label l1;
                   inst2 IMMC_INST_LOAD dst (v or); normal_label le], st).
(** expression.c:131-263 and 322-348: two operands, one instruction *)
Definition gen_binary_expr (t : insttype) (s : srt) (st : gst) : gres :=
  do (c1, f, st) <- gen_child_reg s 0 st;
  do (c2, g, st) <- gen_child_int s 1 st;
  do (dst, st) <- create_dest_reg s st;
  do st <- update_non_void_expr_register dst st;
  Ok (c1 ++ c2 ++ [inst3 t dst f g], st).
(** lhs_srt->dtype->dpointer->to_dtype *)
Definition pointed_nbytes (s : srt) : res Z :=
  do l <- gchild s 0; do d <- dty l;
  match d with DTYPE_POINTER e => Ok (dtype_nbytes e) | _ => UB end.
(** expression.c:265-297 *)
Definition gen_pointer_additive_expr (t : insttype) (s : srt) (st : gst) : gres :=
  do (c1, f, st) <- gen_child_reg s 0 st;
  do (c2, g, st) <- gen_child_reg s 1 st;
  do (dst, st) <- create_dest_reg s st;
  do nb <- pointed_nbytes s;
  do st <- update_non_void_expr_register dst st;
  Ok (c1 ++ c2 ++ [inst3 IMMC_INST_MUL g g (new_signed_int_immcope (ope_suffix g) IInt nb); inst3 t dst f g], st).
(** expression.c:299-320 *)
Definition gen_pointer_diff_expr (s : srt) (st : gst) : gres :=
  do (c1, f, st) <- gen_child_reg s 0 st;
  do (c2, g, st) <- gen_child_reg s 1 st;
  do (dst, st) <- create_dest_reg s st;
  do nb <- pointed_nbytes s;
  do st <- update_non_void_expr_register dst st;
  Ok (c1 ++ c2 ++ [inst3 IMMC_INST_SUB dst f g;
                   inst3 IMMC_INST_DIV dst dst (new_signed_int_immcope (ope_suffix dst) IInt nb)], st).

(** expression.c:418-440 *)
Definition gen_identifier_address_expr (s c : srt) (st : gst) : gres :=
  do src <- ident_ope st c;
  do (dst, st) <- create_dest_reg s st;
  do st <- update_non_void_expr_register dst st;
  Ok ([inst2 IMMC_INST_ADDR dst src], st).
(** expression.c:442-455 *)
Definition gen_string_address_expr (s c : srt) (st : gst) : gres :=
  do id <- srt_strid c;
  do (dst, st) <- create_dest_reg s st;
  do st <- update_non_void_expr_register dst st;
  Ok ([inst2 IMMC_INST_ADDR dst (new_label_immcope (create_sliteral_label id))], st).
(** expression.c:473-482 *)
Fixpoint member_offset (ms : list (name * dtype * Z)) (n : name) : option Z :=
  match ms with
  | [] => None
  | (m, _, off) :: r => if name_eqb m n then Some off else member_offset r n
  end.
(** expression.c:457-492; [s] is the address expression, [c] the member access *)
Definition gen_tomember_address_expr (s c : srt) (st : gst) : gres :=
  do (c1, f, st) <- gen_child_reg c 0 st;
  do sc <- gchild c 0;
  do d <- dty sc;
  do sd <- match d with
           | DTYPE_POINTER (DTYPE_NSTRUCT n _ _) => deref (tag_search (g_tags st) n)
           | DTYPE_POINTER (DTYPE_USTRUCT _ _ _ as u) => Ok u
           | _ => UB
           end;
  do m <- gchild c 1;
  do n <- srt_name m;
  do off <- match sd with DTYPE_USTRUCT ms _ _ => deref (member_offset ms n) | _ => UB end;
  do (dst, st) <- create_dest_reg s st;
  do st <- update_non_void_expr_register dst st;
  Ok (c1 ++ [inst3 IMMC_INST_ADD dst f (new_signed_int_immcope IMMC_SUFFIX_QUAD IInt off)], st).
(** expression.c:394-416 and 494-505 *)
Definition gen_address_expr (s : srt) (st : gst) : gres :=
  do c <- gchild s 0;
  match srt_type c with
  | SRT_IDENT_EXPR => gen_identifier_address_expr s c st
  | SRT_STR_EXPR => gen_string_address_expr s c st
  | SRT_TOMEMBER_EXPR => gen_tomember_address_expr s c st
  | SRT_INDIR_EXPR => append_child c 0 st
  | _ => Fatal
  end.
(** expression.c:507-517 *)
Definition gen_indirection_expr (s : srt) (st : gst) : gres :=
  do (c1, src, st) <- gen_child_ptr s 0 st;
  do (dst, st) <- create_dest_reg s st;
  do st <- update_non_void_expr_register dst st;
  Ok (c1 ++ [inst2 IMMC_INST_LOAD dst src], st).
(** expression.c:519-528 *)
Definition gen_positive_expr (s : srt) (st : gst) : gres :=
  do (c1, dst, st) <- gen_child_reg s 0 st;
  do st <- update_non_void_expr_register dst st;
  Ok (c1, st).
(** expression.c:530-552 *)
Definition gen_neg_not_expr (t : insttype) (s : srt) (st : gst) : gres :=
  do (c1, src, st) <- gen_child_int s 0 st;
  do (dst, st) <- create_dest_reg s st;
  do st <- update_non_void_expr_register dst st;
  Ok (c1 ++ [inst2 t dst src], st).
(** expression.c:554-564 *)
Definition gen_logical_not_expr (s : srt) (st : gst) : gres :=
  do (c1, src, st) <- gen_child_reg s 0 st;
  do (dst, st) <- create_dest_reg s st;
  do st <- update_non_void_expr_register dst st;
  Ok (c1 ++ [inst3 IMMC_INST_SETEQ dst src (new_signed_int_immcope (ope_suffix src) IInt 0)], st).
(** expression.c:605-609: arguments [n-1], ..., 0 *)
Fixpoint gen_args (p : srt) (n : nat) (st : gst) : gres :=
  match n with
  | O => Ok ([], st)
  | S i =>
      do (c, src, st) <- gen_child_int p i st;
      do (cs, st) <- gen_args p i st;
      Ok (c ++ [inst2 IMMC_INST_STARG (new_signed_arg_immcope (ope_suffix src) (Z.of_nat i)) src] ++ cs, st)
  end.
(** expression.c:594-631 *)
Definition gen_call_expr (s : srt) (st : gst) : gres :=
  do p <- gchild s 1;
  let n := length (srt_children p) in
  let num := new_signed_int_immcope IMMC_SUFFIX_NONE IInt (Z.of_nat n) in
  do (c1, st) <- gen_args p n st;
  do (c2, f, st) <- gen_child_ptr s 0 st;
  do d <- dty s;
  do (dst, st) <- (if is_void d then Ok (None, st) else do (r, st) <- create_dest_reg s st; Ok (Some r, st));
  do st <- match dst with Some r => update_non_void_expr_register r st | None => Ok (update_void_expr_register st) end;
  Ok (IMMC_INST IMMC_INST_PREP None (Some num) None :: c1 ++ c2 ++
      [IMMC_INST IMMC_INST_CALL dst (Some f) (Some num); IMMC_INST IMMC_INST_CLEAN None (Some num) None], st).
(** expression.c:633-648 *)
Definition gen_tomember_expr (s : srt) (st : gst) : gres :=
  do d <- dty s;
  do (c1, st) <- gen_tomember_address_expr (new_dtyped_srt SRT_ADDR_EXPR (DTYPE_POINTER d) [s]) s st;
  do r <- deref (g_reg st);
  do (dst, st) <- create_dest_reg s st;
  do st <- update_non_void_expr_register dst st;
  Ok (c1 ++ [inst2 IMMC_INST_LOAD dst (new_ptr_immcope (reg_id r))], st).
(** expression.c:659-668 *)
Definition incdec_value (d : dtype) (sf : suffix) : res ope :=
  if dtype_issignedinteger d then Ok (new_signed_int_immcope sf IInt 1)
  else if dtype_isunsignedinteger d then Ok (new_unsigned_int_immcope sf IUInt 1)
  else match d with
       | DTYPE_POINTER e =>
           let nb := dtype_nbytes e in Ok (new_signed_int_immcope sf IInt (if nb >? 0 then nb else 1))
       | _ => UB
       end.
(** expression.c:650-705 *)
Definition gen_incdec_expr (s : srt) (st : gst) : gres :=
  do (c1, ptr, st) <- gen_child_ptr s 0 st;
  do (dst, st) <- create_dest_reg s st;
  do d <- dty s;
  do v <- incdec_value d (ope_suffix dst);
  let first := inst2 IMMC_INST_LOAD dst ptr in
  let store := inst2 IMMC_INST_STORE ptr dst in
  match srt_type s with
  | SRT_PREINC_EXPR =>
      do st <- update_non_void_expr_register dst st;
      Ok (c1 ++ [first; inst3 IMMC_INST_ADD dst dst v; store], st)
  | SRT_PREDEC_EXPR =>
      do st <- update_non_void_expr_register dst st;
      Ok (c1 ++ [first; inst3 IMMC_INST_SUB dst dst v; store], st)
  | SRT_POSTINC_EXPR =>
      do (e, st) <- create_dest_reg s st;
      do st <- update_non_void_expr_register e st;
      Ok (c1 ++ [first; inst2 IMMC_INST_LOAD e dst; inst3 IMMC_INST_ADD dst dst v; store], st)
  | SRT_POSTDEC_EXPR =>
      do (e, st) <- create_dest_reg s st;
      do st <- update_non_void_expr_register e st;
      Ok (c1 ++ [first; inst2 IMMC_INST_LOAD e dst; inst3 IMMC_INST_SUB dst dst v; store], st)
  | _ => Fatal
  end.
(** expression.c:707-745 *)
Definition gen_primary_expr (s : srt) (st : gst) : gres :=
  do src <- match srt_type s with
            | SRT_IDENT_EXPR => ident_ope st s
            | SRT_STR_EXPR => do id <- srt_strid s; Ok (new_label_immcope (create_sliteral_label id))
            | SRT_ILITERAL_EXPR =>
                do d <- dty s; do i <- srt_iliteral s; Ok (new_int_immcope (immcsuffix_get (dtype_nbytes d)) i)
            | _ => Fatal
            end;
  do (dst, st) <- create_dest_reg s st;
  do st <- update_non_void_expr_register dst st;
  Ok ([inst2 IMMC_INST_LOAD dst src], st).

(** * statement.c *)
(** statement.c:15-31 *)
Definition gen_case_stmt (s : srt) (st : gst) : gres :=
  do v <- gchild s 0;
  let (l, st) := next_label st in
  do i <- srt_iliteral v;
  do cases <- deref (g_cases st);
  do (cs, st) <- append_child s 1 (gset_cases (Some (cases ++ [(l, i)])) st);
  Ok (normal_label l :: cs, st).
(** statement.c:33-46 *)
Definition gen_default_stmt (s : srt) (st : gst) : gres :=
  let (l, st) := next_label st in
  do (cs, st) <- append_child s 0 (gset_default l st);
  Ok (normal_label l :: cs, st).
(** statement.c:62-76 *)
Definition gen_return_stmt (s : srt) (st : gst) : gres :=
  do (cs, st) <- match srt_children s with
                 | [] => Ok ([], st)
                 | _ => do (c, v, st) <- gen_child_int s 0 st;
                        Ok (c ++ [IMMC_INST IMMC_INST_STRET None (Some v) None], st)
                 end;
  Ok (cs ++ [jmp_to (g_ret st)], st).
(** statement.c:78-87 *)
Definition gen_expression_stmt (s : srt) (st : gst) : gres := append_child s 0 (update_void_expr_register st).
(** statement.c:117-118 and 150-151: the label the codes end with *)
Definition last_label (cs : list immc) : option name :=
  match rev cs with IMMC_LABEL _ _ n :: _ => Some n | _ => None end.
(** statement.c:106-128 *)
Definition gen_if_without_else_stmt (s : srt) (st : gst) : gres :=
  let (le, st) := next_label st in
  do (c1, j, st) <- gen_jmp_cond s 0 false st;
  do (c2, st) <- append_child s 1 st;
  match last_label c2 with
  | Some n => Ok (c1 ++ [j (new_label_immcope n)] ++ c2, st)
  | None => Ok (c1 ++ [j (new_label_immcope_from_id le)] ++ c2 ++ [normal_label le], st)
  end.
(** statement.c:130-161 *)
Definition gen_if_with_else_stmt (s : srt) (st : gst) : gres :=
  let (lf, st) := next_label st in
  let (le, st) := next_label st in
  do (c1, st) <- append_jmp s 0 false lf st;
  do (c2, st) <- append_child s 1 st;
  do (c3, st) <- append_child s 2 st;
  match last_label (normal_label lf :: c3) with
  | Some n => Ok (c1 ++ c2 ++ [IMMC_INST IMMC_INST_JMP (Some (new_label_immcope n)) None None; normal_label lf] ++ c3, st)
  | None => Ok (c1 ++ c2 ++ [jmp_to le; normal_label lf] ++ c3 ++ [normal_label le], st)
  end.
(** statement.c:93-104 *)
Definition gen_if_else_stmt (s : srt) (st : gst) : gres :=
  if Nat.eqb (length (srt_children s)) 2 then gen_if_without_else_stmt s st else gen_if_with_else_stmt s st.
(** statement.c:163-218 *)
Definition gen_switch_stmt (s : srt) (st : gst) : gres :=
  do (c1, r, st) <- gen_child_reg s 0 st;
  let (lb, st) := next_label st in
  let cases0 := g_cases st in
  let default0 := g_default st in
  let brk0 := g_brk st in
  do (c2, st) <- append_child s 1 (gset_brk lb (gset_default (-1) (gset_cases (Some []) st)));
  do cases <- deref (g_cases st);
  let jumps := List.map (fun p : Z * iliteral =>
      inst3 IMMC_INST_JEQ (new_label_immcope_from_id (fst p)) r
            (new_int_immcope (immcsuffix_get (iliteral_nbytes (snd p))) (snd p))) cases in
  let other := jmp_to (if g_default st >? 0 then g_default st else lb) in
  Ok (c1 ++ jumps ++ [other] ++ c2 ++ [normal_label lb], gset_default default0 (gset_cases cases0 (gset_brk brk0 st))).
(** statement.c:220-248 *)
Definition gen_while_stmt (s : srt) (st : gst) : gres :=
  let (lb, st) := next_label st in
  let (le, st) := next_label st in
  do (c1, st) <- append_jmp s 0 false le st;
  let cont0 := g_cont st in
  let brk0 := g_brk st in
  do (c2, st) <- append_child s 1 (gset_brk le (gset_cont lb st));
  Ok (normal_label lb :: c1 ++ c2 ++ [jmp_to lb; normal_label le], gset_brk brk0 (gset_cont cont0 st)).
(** statement.c:250-292 *)
Definition gen_for_stmt (s : srt) (st : gst) : gres :=
  let (lb, st) := next_label st in
  let (lc, st) := next_label st in
  let (le, st) := next_label st in
  do (c0, st) <- append_child s 0 st;
  do cond <- gchild s 1;
  do (c1, st) <- (if srt_is cond SRT_EXPR_STMT then append_jmp cond 0 false le st else Ok ([], st));
  let cont0 := g_cont st in
  let brk0 := g_brk st in
  do (c2, st) <- append_child s 3 (gset_brk le (gset_cont lc st));
  do (c3, st) <- append_child s 2 (gset_brk brk0 (gset_cont cont0 st));
  Ok (c0 ++ [normal_label lb] ++ c1 ++ c2 ++ [normal_label lc] ++ c3 ++ [jmp_to lb; normal_label le], st).

(** * declaration.c *)
Definition is_global (st : gst) : bool := Nat.eqb (length (g_syms st)) 1.
(** declaration.c:17-27 *)
Definition gen_tag_decl (s : srt) (st : gst) : gres :=
  do d <- dty s;
  match d with
  | DTYPE_USTRUCT ms _ _ =>
      do n <- srt_name s;
      do tags <- tag_define_struct (g_tags st) n (List.map fst ms);
      Ok ([], gset_tags tags st)
  | DTYPE_NSTRUCT _ _ _ => UB
  | _ => Ok ([], st)
  end.
(** declaration.c:98-113 *)
Definition gen_identifier_decl (s : srt) (st : gst) : gres :=
  do n <- srt_name s;
  do d <- dty s;
  do syms <- (if is_global st || negb (dtype_isobject d)
              then sym_define_label (g_syms st) n d else sym_define_memory (g_syms st) n d);
  Ok ([], gset_syms syms st).
(** declaration.c:115-124 *)
Definition gen_string_decl (s : srt) (st : gst) : gres :=
  do d <- dty s;
  do id <- srt_strid s;
  do syms <- sym_define_label (g_syms st) (create_sliteral_label id) d;
  Ok ([], gset_syms syms st).
(** declaration.c:40-75 *)
Definition gen_global_init_decl (s : srt) (st : gst) : gres :=
  do (c0, st) <- append_child s 0 st;
  do decl <- gchild s 0;
  do n <- (if srt_is decl SRT_STR_DECL then do id <- srt_strid decl; Ok (create_sliteral_label id) else srt_name decl);
  do y <- deref (sym_search (g_syms st) n);
  if negb (dtype_isobject (sy_dtype y)) then Ok (c0, st)
  else
    let lab := new_label_immc IMMC_LABEL_VARIABLE IMMC_VIS_GLOBAL n in
    if Nat.eqb (length (srt_children s)) 1 then
      do d <- dty decl;
      Ok (c0 ++ [lab; new_int_data_immc IMMC_DATA_ZERO (new_signed IInt (dtype_nbytes d))], st)
    else
      do i <- gchild s 1;
      do (c1, st) <- gen (Some (sy_dtype y)) i st;
      Ok (c0 ++ [lab] ++ c1, st).
(** declaration.c:77-96; a label symbol has memory offset -1 (symbol.c:30-38) *)
Definition gen_local_init_decl (s : srt) (st : gst) : gres :=
  do (c0, st) <- append_child s 0 st;
  if Nat.eqb (length (srt_children s)) 1 then Ok (c0, st)
  else
    do decl <- gchild s 0;
    do n <- srt_name decl;
    do y <- deref (sym_search (g_syms st) n);
    let off := match sy_kind y with SYMBOL_MEM o => o | _ => -1 end in
    do i <- gchild s 1;
    do (c1, st) <- gen (Some (sy_dtype y)) i (gset_off off st);
    Ok (c0 ++ c1, gset_off (-1) st).
(** declaration.c:29-38 *)
Definition gen_init_decl (s : srt) (st : gst) : gres :=
  if is_global st then gen_global_init_decl s st else gen_local_init_decl s st.

(** declaration.c:162-165: children [i], ..., [i+n-1], all of the element type *)
Fixpoint gen_elements (s : srt) (e : dtype) (i n : nat) (st : gst) : gres :=
  match n with
  | O => Ok ([], st)
  | S m =>
      do c <- gchild s i;
      do (c1, st) <- gen (Some e) c st;
      do (c2, st) <- gen_elements s e (S i) m st;
      Ok (c1 ++ c2, st)
  end.
(** declaration.c:146-191 *)
Definition gen_array_initializer (d e : dtype) (n : Z) (s : srt) (st : gst) : gres :=
  do c <- gchild s 0;
  if srt_is c SRT_SLITERAL_EXPR then
    do l <- srt_sliteral c;
    if is_global st then Ok ([new_str_data_immc IMMC_DATA_STR l], st)
    else Ok ([inst2 IMMC_INST_STR (new_mem_immcope (g_off st)) (new_str_immcope l)],
             gset_off (g_off st - dtype_nbytes d) st)
  else gen_elements s e 0 (Z.to_nat n) st.
(** declaration.c:204-231; [ms] the members from the [i]-th on *)
Fixpoint gen_global_members (s : srt) (nbytes : Z) (ms : list (name * dtype * Z)) (i : nat) (st : gst) : gres :=
  match ms with
  | [] => Ok ([], st)
  | (_, d, off) :: r =>
      do c <- gchild s i;
      do (c1, st) <- gen (Some d) c st;
      let next := match r with [] => nbytes | (_, _, o) :: _ => o end in
      let padding := next - (off + dtype_nbytes d) in
      do (c2, st) <- gen_global_members s nbytes r (S i) st;
      Ok (c1 ++ (if padding >? 0 then [new_int_data_immc IMMC_DATA_ZERO (new_signed IInt padding)] else []) ++ c2, st)
  end.
(** declaration.c:233-248 *)
Fixpoint gen_local_members (s : srt) (base : Z) (ms : list (name * dtype * Z)) (i : nat) (st : gst) : gres :=
  match ms with
  | [] => Ok ([], st)
  | (_, d, off) :: r =>
      do c <- gchild s i;
      do (c1, st) <- gen (Some d) c (gset_off (base - off) st);
      do (c2, st) <- gen_local_members s base r (S i) st;
      Ok (c1 ++ c2, st)
  end.
(** declaration.c:193-202 *)
Definition gen_struct_initializer (d : dtype) (s : srt) (st : gst) : gres :=
  match d with
  | DTYPE_USTRUCT ms nb _ =>
      if is_global st then gen_global_members s nb ms 0 st else gen_local_members s (g_off st) ms 0 st
  | _ => UB
  end.
(** declaration.c:261-292 *)
Definition gen_global_scalar_initializer (d : dtype) (s : srt) (st : gst) : gres :=
  do c <- gchild s 0;
  do e <- strip_casts c;
  do i <- srt_iliteral e;
  let l := create_dtyped_iliteral d i in
  let nb := dtype_nbytes d in
  if nb =? 1 then Ok ([new_int_data_immc IMMC_DATA_BYTE l], st)
  else if nb =? 2 then Ok ([new_int_data_immc IMMC_DATA_WORD l], st)
  else if nb =? 4 then Ok ([new_int_data_immc IMMC_DATA_LONG l], st)
  else if nb =? 8 then Ok ([new_int_data_immc IMMC_DATA_QUAD l], st)
  else Fatal.
(** declaration.c:294-304 *)
Definition gen_local_scalar_initializer (d : dtype) (s : srt) (st : gst) : gres :=
  let dst := new_mem_immcope (g_off st) in
  do (c1, src, st) <- gen_child_int s 0 st;
  Ok (c1 ++ [inst2 IMMC_INST_STORE dst src], gset_off (g_off st - dtype_nbytes d) st).
(** declaration.c:126-144 and 250-259 *)
Definition gen_initializer (od : option dtype) (s : srt) (st : gst) : gres :=
  do d <- deref od;
  match d with
  | DTYPE_ARRAY e n => gen_array_initializer d e n s st
  | DTYPE_USTRUCT _ _ _ => gen_struct_initializer d s st
  | DTYPE_NSTRUCT n _ _ => do d <- deref (tag_search (g_tags st) n); gen_struct_initializer d s st
  | _ => if is_global st then gen_global_scalar_initializer d s st else gen_local_scalar_initializer d s st
  end.

(** * external.c *)
(** external.c:31-45 *)
Fixpoint gen_params (ps : list (option name * dtype)) (i : Z) (st : gst) : gres :=
  match ps with
  | [] => Ok ([], st)
  | (n, d) :: r =>
      do n <- deref n;
      do syms <- sym_define_memory (g_syms st) n d;
      do y <- deref (sym_search syms n);
      do off <- match sy_kind y with SYMBOL_MEM o => Ok o | _ => UB end;
      do (cs, st) <- gen_params r (i + 1) (gset_syms syms st);
      Ok (inst2 IMMC_INST_LDARG (new_mem_immcope off) (new_signed_arg_immcope (immcsuffix_get (dtype_nbytes d)) i) :: cs, st)
  end.
(** external.c:15-73 *)
Definition gen_function_definition (s : srt) (st : gst) : gres :=
  do decl <- gchild s 0;
  do n <- srt_name decl;
  do d <- dty decl;
  do syms <- sym_define_label (g_syms st) n d;
  let (lr, st) := next_label (gset_next (-1) st) in
  do syms <- sym_set_nbytes (sym_enter syms) 0;
  let st := gset_ret lr (gset_tags (tag_enter (g_tags st)) (gset_syms syms st)) in
  do ps <- match d with DTYPE_FUNCTION ps _ => Ok ps | _ => UB end;
  do (c1, st) <- gen_params ps 0 st;
  do body <- gchild s 1;
  do (c2, st) <- append_list (srt_children body) st;
  do nb <- match g_syms st with sc :: _ => Ok (sc_nbytes sc) | [] => UB end;
  let size := new_int_immcope IMMC_SUFFIX_QUAD (new_signed IInt nb) in
  do tags <- tag_exit (g_tags st);
  do syms <- sym_set_nbytes (g_syms st) 0;
  do syms <- sym_exit syms;
  Ok ([new_label_immc IMMC_LABEL_FUNCTION IMMC_VIS_GLOBAL n; IMMC_INST IMMC_INST_ENTER None (Some size) None]
      ++ c1 ++ c2 ++ [normal_label (g_ret st); IMMC_INST IMMC_INST_LEAVE None (Some size) None],
      gset_tags tags (gset_syms syms st)).

(** immcgen.c:64-68 and 95-99 *)
Definition gin_scope (f : gst -> gres) (st : gst) : gres :=
  do (cs, st) <- f (gset_tags (tag_enter (g_tags st)) (gset_syms (sym_enter (g_syms st)) st));
  do tags <- tag_exit (g_tags st);
  do syms <- sym_exit (g_syms st);
  Ok (cs, gset_syms syms (gset_tags tags st)).

(** immcgen.c:28-176, with expression.c:350-392 and 566-592 and statement.c:9-13, 48-60, 89-91 *)
Definition gen_body (od : option dtype) (s : srt) (st : gst) : gres :=
  match srt_type s with
  | SRT_TRAS_UNIT => append_list (srt_children s) st
  | SRT_FUNC_DEF => gen_function_definition s st
  | SRT_DECL_LIST => append_list (srt_children s) st
  | SRT_TAG_DECL => gen_tag_decl s st
  | SRT_INIT_DECL => gen_init_decl s st
  | SRT_IDENT_DECL => gen_identifier_decl s st
  | SRT_STR_DECL => gen_string_decl s st
  | SRT_INIT => gen_initializer od s st
  | SRT_CASE_STMT => gen_case_stmt s st
  | SRT_DEFAULT_STMT => gen_default_stmt s st
  | SRT_CMPD_STMT => gin_scope (append_list (srt_children s)) st
  | SRT_CONTINUE_STMT => Ok ([jmp_to (g_cont st)], st)
  | SRT_BREAK_STMT => Ok ([jmp_to (g_brk st)], st)
  | SRT_RET_STMT => gen_return_stmt s st
  | SRT_EXPR_STMT => gen_expression_stmt s st
  | SRT_NULL_STMT => Ok ([], st)
  | SRT_IF_STMT => gen_if_else_stmt s st
  | SRT_SWITCH_STMT => gen_switch_stmt s st
  | SRT_WHILE_STMT => gen_while_stmt s st
  | SRT_FOR_STMT => gin_scope (gen_for_stmt s) st
  | SRT_ASSIGN_EXPR => gen_assignment_expr s st
  | SRT_COND_EXPR => gen_conditional_expr s st
  | SRT_LOR_EXPR => gen_logical_expr true s st
  | SRT_LAND_EXPR => gen_logical_expr false s st
  | SRT_OR_EXPR => gen_binary_expr IMMC_INST_OR s st
  | SRT_XOR_EXPR => gen_binary_expr IMMC_INST_XOR s st
  | SRT_AND_EXPR => gen_binary_expr IMMC_INST_AND s st
  | SRT_EQUAL_EXPR => gen_binary_expr IMMC_INST_SETEQ s st
  | SRT_NEQUAL_EXPR => gen_binary_expr IMMC_INST_SETNEQ s st
  | SRT_LESS_EXPR => gen_binary_expr IMMC_INST_SETLT s st
  | SRT_GREATER_EXPR => gen_binary_expr IMMC_INST_SETGT s st
  | SRT_LESSEQ_EXPR => gen_binary_expr IMMC_INST_SETLEQ s st
  | SRT_GREATEREQ_EXPR => gen_binary_expr IMMC_INST_SETGEQ s st
  | SRT_LSHIFT_EXPR => gen_binary_expr IMMC_INST_SAL s st
  | SRT_RSHIFT_EXPR => gen_binary_expr IMMC_INST_SAR s st
  | SRT_ADD_EXPR => gen_binary_expr IMMC_INST_ADD s st
  | SRT_SUB_EXPR => gen_binary_expr IMMC_INST_SUB s st
  | SRT_PADD_EXPR => gen_pointer_additive_expr IMMC_INST_ADD s st
  | SRT_PSUB_EXPR => gen_pointer_additive_expr IMMC_INST_SUB s st
  | SRT_PDIFF_EXPR => gen_pointer_diff_expr s st
  | SRT_MUL_EXPR => gen_binary_expr IMMC_INST_MUL s st
  | SRT_DIV_EXPR => gen_binary_expr IMMC_INST_DIV s st
  | SRT_MOD_EXPR => gen_binary_expr IMMC_INST_MOD s st
  | SRT_PREINC_EXPR | SRT_PREDEC_EXPR | SRT_POSTINC_EXPR | SRT_POSTDEC_EXPR => gen_incdec_expr s st
  | SRT_ADDR_EXPR => gen_address_expr s st
  | SRT_INDIR_EXPR => gen_indirection_expr s st
  | SRT_POS_EXPR => gen_positive_expr s st
  | SRT_NEG_EXPR => gen_neg_not_expr IMMC_INST_NEG s st
  | SRT_NOT_EXPR => gen_neg_not_expr IMMC_INST_NOT s st
  | SRT_LNOT_EXPR => gen_logical_not_expr s st
  | SRT_CALL_EXPR => gen_call_expr s st
  | SRT_TOMEMBER_EXPR => gen_tomember_expr s st
  | SRT_IDENT_EXPR | SRT_STR_EXPR | SRT_ILITERAL_EXPR => gen_primary_expr s st
  | _ => Fatal
  end.
End Gen.

Fixpoint gen (fuel : nat) (od : option dtype) (s : srt) (st : gst) : gres :=
  match fuel with
  | O => Fuel
  | S f => gen_body (gen f) od s st
  end.
Fixpoint srt_height (s : srt) : nat :=
  let 'Srt _ _ _ cs := s in S (list_max (List.map srt_height cs)).
(** immcgen_generate_immcode of a translation unit *)
Definition immcgen (s : srt) : res (list immc) :=
  do (cs, _) <- gen (S (srt_height s)) None s new_immcgen; Ok cs.
