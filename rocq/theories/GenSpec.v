(** The expressions and statements for which the generated intermediate code is right. What is left out is wrong,
    see the refutations. *)
From Verif Require Import Base SrtModel X64Isa OpSpec TypeSpec X64Decode CSem.
Open Scope Z_scope.

(** every value of type [a] is one of type [b] *)
Definition keeps (a b : dtype) : bool :=
  match kind a, kind b with
  | Some (u, s), Some (v, t) =>
      if u then (nbits s <? nbits t) || (v && (nbits s <=? nbits t)) else negb v && (nbits s <=? nbits t)
  | _, _ => false
  end.
Definition narrower (a b : dtype) : bool :=
  match kind a, kind b with Some (_, s), Some (_, t) => nbits s <=? nbits t | _, _ => false end.
Definition scalar (e : srt) : bool :=
  match srt_dtype e with Some d => match kind d with Some _ => true | None => false end | None => false end.
(** Casts of casts: only the outermost one is compiled, so the inner ones must not lose what it keeps. *)
Fixpoint inner_casts (d : dtype) (e : srt) : bool :=
  match e with
  | Srt SRT_CAST_EXPR (Some t) _ [c] =>
      (narrower d t || match srt_dtype c with Some a => keeps a t | None => false end) && inner_casts d c
  | _ => scalar e
  end.
(** Pointer operands: the address is taken from the register written last, so the value of the pointer must be
    computed last. *)
Fixpoint computed_last (e : srt) : bool :=
  match e with
  | Srt (SRT_COND_EXPR | SRT_POS_EXPR) _ _ _ => false
  | Srt SRT_ADDR_EXPR _ _ [Srt SRT_INDIR_EXPR _ _ [p]] => computed_last p
  | Srt SRT_ASSIGN_EXPR _ _ [Srt SRT_ADDR_EXPR _ _ [Srt SRT_IDENT_EXPR _ _ _]; r] =>
      srt_is r SRT_CAST_EXPR || srt_is r SRT_ILITERAL_EXPR || computed_last r
  | Srt SRT_ASSIGN_EXPR _ _ _ => false
  | _ => true
  end.
(** the index of pointer arithmetic is scaled in its own type, at least int here *)
Definition wide_index (e : srt) : bool :=
  match srt_dtype e with Some d => negb (is_char d) | None => false end.

(** the count of a shift, if it is a literal, is used with its own value: a conversion must not change it *)
Fixpoint uncast (e : srt) : srt := match e with Srt SRT_CAST_EXPR _ _ [c] => uncast c | _ => e end.
Definition exact_count (e : srt) : bool :=
  match uncast e, srt_dtype e with
  | Srt SRT_ILITERAL_EXPR _ (SPInt i) _, Some d => match kind d with Some (u, s) => in_range u s (lit_value i) | None => false end
  | _, _ => true
  end.

Definition is_expr (t : srttype) : bool :=
  match t with
  | SRT_ASSIGN_EXPR | SRT_COND_EXPR | SRT_LOR_EXPR | SRT_LAND_EXPR
  | SRT_OR_EXPR | SRT_XOR_EXPR | SRT_AND_EXPR | SRT_EQUAL_EXPR | SRT_NEQUAL_EXPR | SRT_LESS_EXPR
  | SRT_GREATER_EXPR | SRT_LESSEQ_EXPR | SRT_GREATEREQ_EXPR | SRT_LSHIFT_EXPR | SRT_RSHIFT_EXPR
  | SRT_ADD_EXPR | SRT_SUB_EXPR | SRT_PADD_EXPR | SRT_PSUB_EXPR | SRT_PDIFF_EXPR | SRT_MUL_EXPR
  | SRT_DIV_EXPR | SRT_MOD_EXPR | SRT_CAST_EXPR | SRT_PREINC_EXPR | SRT_PREDEC_EXPR | SRT_ADDR_EXPR
  | SRT_INDIR_EXPR | SRT_POS_EXPR | SRT_NEG_EXPR | SRT_NOT_EXPR | SRT_LNOT_EXPR | SRT_CALL_EXPR
  | SRT_TOMEMBER_EXPR | SRT_POSTINC_EXPR | SRT_POSTDEC_EXPR | SRT_ARG_LIST | SRT_IDENT_EXPR
  | SRT_STR_EXPR | SRT_ILITERAL_EXPR | SRT_SLITERAL_EXPR => true
  | _ => false
  end.
Definition regular_node (e : srt) : bool :=
  match e with
  | Srt SRT_CAST_EXPR (Some d) _ [c] => inner_casts d c
  | Srt (SRT_INDIR_EXPR | SRT_ASSIGN_EXPR | SRT_CALL_EXPR | SRT_PREINC_EXPR | SRT_PREDEC_EXPR | SRT_POSTINC_EXPR | SRT_POSTDEC_EXPR)
      _ _ (p :: _) => computed_last p
  | Srt (SRT_PADD_EXPR | SRT_PSUB_EXPR) _ _ [_; i] => wide_index i
  | Srt (SRT_LSHIFT_EXPR | SRT_RSHIFT_EXPR) _ _ [_; c] => exact_count c
  | Srt SRT_PDIFF_EXPR (Some d) _ _ => negb (is_char d)
  | _ => true
  end.
Fixpoint regular (e : srt) : bool :=
  let 'Srt t _ _ cs := e in is_expr t && regular_node e && forallb regular cs.

(** * Statements *)
(** The space an initialiser of an object of type [d] fills up to its last scalar. Initialisers of the elements of an
    array are laid end to end, so each must fill its element. *)
Fixpoint regular_init (T : tagtab) (s : srt) (d : dtype) {struct s} : option Z :=
  match s with
  | Srt SRT_INIT _ _ cs =>
      match d with
      | DTYPE_ARRAY e n =>
          match cs with
          | [Srt SRT_SLITERAL_EXPR _ (SPStr l) _] => Some (sizeof d)
          | _ =>
              if (fix all (l : list srt) : bool :=
                    match l with
                    | [] => true
                    | c :: r => match regular_init T c e with Some k => (k =? sizeof e) && all r | None => false end
                    end) cs
              then if Z.of_nat (length cs) =? n then Some (sizeof d) else None else None
          end
      | DTYPE_USTRUCT _ _ _ | DTYPE_NSTRUCT _ _ _ =>
          match struct_members T d with
          | Some ms =>
              (fix members (l : list srt) (ms : list (name * dtype * Z)) (k : Z) {struct l} : option Z :=
                 match l, ms with
                 | [], _ => Some k
                 | c :: r, (_, t, off) :: ms => match regular_init T c t with Some z => members r ms (off + z) | None => None end
                 | _, _ => None
                 end) cs ms 0
          | None => None
          end
      | _ => match cs with [e] => if regular e then Some (sizeof d) else None | _ => None end
      end
  | _ => None
  end.

(** the case labels and the default labels of a switch body *)
Fixpoint case_literals (s : srt) : list iliteral :=
  let all := fix all (l : list srt) : list iliteral := match l with [] => [] | x :: r => case_literals x ++ all r end in
  match s with
  | Srt SRT_CASE_STMT _ _ [Srt _ _ (SPInt i) _; b] => i :: case_literals b
  | Srt SRT_SWITCH_STMT _ _ _ => []
  | Srt (SRT_CMPD_STMT | SRT_IF_STMT | SRT_WHILE_STMT | SRT_FOR_STMT | SRT_DEFAULT_STMT) _ _ cs => all cs
  | _ => []
  end.
Fixpoint defaults (s : srt) : nat :=
  let all := fix all (l : list srt) : nat := match l with [] => O | x :: r => (defaults x + all r)%nat end in
  match s with
  | Srt SRT_CASE_STMT _ _ [_; b] => defaults b
  | Srt SRT_SWITCH_STMT _ _ _ => O
  | Srt SRT_DEFAULT_STMT _ _ cs => S (all cs)
  | Srt (SRT_CMPD_STMT | SRT_IF_STMT | SRT_WHILE_STMT | SRT_FOR_STMT) _ _ cs => all cs
  | _ => O
  end.
(** a case constant is compared with the controlling expression in the larger of their sizes *)
Definition case_fits (c : srt) (i : iliteral) : bool :=
  match srt_dtype c with
  | Some d => match kind d with Some (_, z) => iliteral_nbytes i <=? size_bytes z | None => false end
  | None => false
  end.

Fixpoint regular_stmt (Sc : scopes) (s : srt) {struct s} : bool :=
  let items := fix items (Sc : scopes) (l : list srt) {struct l} : bool :=
                 match l with
                 | [] => true
                 | x :: r => regular_stmt Sc x && match after x Sc with Ok Sc => items Sc r | _ => false end
                 end in
  match s with
  | Srt (SRT_NULL_STMT | SRT_TAG_DECL | SRT_BREAK_STMT | SRT_CONTINUE_STMT) _ _ _ => true
  | Srt SRT_EXPR_STMT _ _ [e] => regular e
  | Srt SRT_RET_STMT _ _ [] => true
  | Srt SRT_RET_STMT _ _ [e] => regular e
  | Srt SRT_DECL_LIST _ _ ds => forallb (fun x => srt_is x SRT_INIT_DECL) ds && items Sc ds
  | Srt SRT_INIT_DECL _ _ [Srt SRT_IDENT_DECL (Some _) (SPName _) _] => true
  | Srt SRT_INIT_DECL _ _ [Srt SRT_IDENT_DECL (Some d) (SPName n) _; i] =>
      match declare n d Sc with
      | Ok Sc =>
          match sym_search (s_syms Sc) n with
          | Some y => match regular_init (s_tags Sc) i (sy_dtype y) with Some _ => true | None => false end
          | None => false
          end
      | _ => false
      end
  | Srt SRT_CMPD_STMT _ _ cs => items (enter Sc) cs
  | Srt SRT_CASE_STMT _ _ [Srt _ _ (SPInt _) _; b] => regular_stmt Sc b
  | Srt SRT_DEFAULT_STMT _ _ [b] => regular_stmt Sc b
  | Srt SRT_IF_STMT _ _ [c; a] => regular c && regular_stmt Sc a
  | Srt SRT_IF_STMT _ _ [c; a; b] =>
      regular c && regular_stmt Sc a && match after a Sc with Ok Sc => regular_stmt Sc b | _ => false end
  | Srt SRT_WHILE_STMT _ _ [c; b] => regular c && regular_stmt Sc b
  | Srt SRT_FOR_STMT _ _ [Srt (SRT_NULL_STMT | SRT_EXPR_STMT | SRT_DECL_LIST) _ _ _ as i; c; Srt (SRT_NULL_STMT | SRT_EXPR_STMT) _ _ _ as u; b] =>
      regular_stmt (enter Sc) i
      && match c with Srt SRT_EXPR_STMT _ _ [e] => regular e | Srt SRT_NULL_STMT _ _ _ => true | _ => false end
      && match after i (enter Sc) with
         | Ok Sc => regular_stmt Sc b && match after b Sc with Ok Sc => regular_stmt Sc u | _ => false end
         | _ => false
         end
  | Srt SRT_SWITCH_STMT _ _ [c; b] =>
      regular c && regular_stmt Sc b && (Nat.leb (defaults b) 1) && forallb (case_fits c) (case_literals b)
  | _ => false
  end.
