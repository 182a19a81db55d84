(** What a C program means: an evaluator for typed trees, written from C11 and independent of the code
    generator. Only the representation of trees, types and scopes is shared with the compiler.

    Outcomes: [Ok] a result; [UB] the program has undefined behaviour; [Fatal] the tree is not a well-typed
    program or uses a construct this semantics leaves out (struct values); [Fuel] more steps are needed.
    Where C leaves the order of evaluation open, one order is fixed: right operand of an assignment before
    the left one, arguments from the last to the first, before the function. *)
From Verif Require Import Base SrtModel X64Isa OpSpec TypeSpec X64Decode.
Open Scope Z_scope.

(** Memory and the effects of library calls *)
Record world := mkworld { w_mem : memory; w_heap : Z; w_out : list Z }.
Definition set_wmem (W : world) (m : memory) : world := mkworld m (w_heap W) (w_out W).

(** Signedness and size of the values of a scalar type; addresses are unsigned 8-byte numbers *)
Definition kind (d : dtype) : option (bool * size) :=
  match d with
  | DTYPE_CHAR => Some (false, S1)
  | DTYPE_INT | DTYPE_NENUM _ | DTYPE_UENUM _ => Some (false, S4)
  | DTYPE_UNSIGNED_INT => Some (true, S4)
  | DTYPE_LONG | DTYPE_LONGLONG => Some (false, S8)
  | DTYPE_UNSIGNED_LONG | DTYPE_UNSIGNED_LONGLONG => Some (true, S8)
  | DTYPE_POINTER _ => Some (true, S8)
  | _ => None
  end.
Definition integer (d : dtype) : bool := match d with DTYPE_POINTER _ => false | _ => match kind d with Some _ => true | None => false end end.
Definition pointer (d : dtype) : bool := match d with DTYPE_POINTER _ => true | _ => false end.
Definition size_eqb (a b : size) : bool := match a, b with S1, S1 | S2, S2 | S4, S4 | S8, S8 => true | _, _ => false end.
(** both scalar, of the same size and signedness, and both pointers or both integers *)
Definition alike (a b : option dtype) : bool :=
  match a, b with
  | Some a, Some b =>
      match kind a, kind b with
      | Some (u, s), Some (v, t) => Bool.eqb u v && size_eqb s t && Bool.eqb (pointer a) (pointer b)
      | _, _ => false
      end
  | _, _ => false
  end.

(** * Values *)
(** conversion to a type (6.3.1.3; narrowing to a signed type keeps the low bits, as gcc defines it) *)
Definition convert (d : dtype) (v : Z) : res Z :=
  match d with
  | DTYPE_VOID => Ok 0
  | _ => match kind d with Some (u, s) => Ok (interp u s v) | None => Fatal end
  end.
(** the result of arithmetic at type [d]: unsigned wraps, signed overflow is undefined (6.2.5p9, 6.5p5) *)
Definition fit (d : dtype) (v : Z) : res Z :=
  match kind d with
  | Some (true, s) => Ok (low s v)
  | Some (false, s) => if in_range false s v then Ok v else UB
  | None => Fatal
  end.
Definition width_of (d : dtype) : Z := match kind d with Some (_, s) => nbits s | None => 0 end.
Definition signed_type (d : dtype) : bool := match kind d with Some (u, _) => negb u | None => false end.
(** 6.5.5 - 6.5.12 on operands already converted to [d]; the count of a shift has its own type *)
Definition arith (t : srttype) (d : dtype) (a b : Z) : res Z :=
  match t with
  | SRT_ADD_EXPR => fit d (a + b)
  | SRT_SUB_EXPR => fit d (a - b)
  | SRT_MUL_EXPR => fit d (a * b)
  | SRT_DIV_EXPR => if b =? 0 then UB else fit d (Z.quot a b)
  | SRT_MOD_EXPR => if b =? 0 then UB else do _ <- fit d (Z.quot a b); fit d (Z.rem a b)
  | SRT_AND_EXPR => fit d (Z.land a b)
  | SRT_OR_EXPR => fit d (Z.lor a b)
  | SRT_XOR_EXPR => fit d (Z.lxor a b)
  | SRT_LSHIFT_EXPR =>
      if negb ((0 <=? b) && (b <? width_of d)) then UB
      else if signed_type d && (a <? 0) then UB else fit d (a * 2 ^ b)
  | SRT_RSHIFT_EXPR =>
      if negb ((0 <=? b) && (b <? width_of d)) then UB else fit d (a / 2 ^ b)
  | _ => Fatal
  end.
Definition truth (b : bool) : Z := if b then 1 else 0.
Definition relation (t : srttype) (a b : Z) : option bool :=
  match t with
  | SRT_EQUAL_EXPR => Some (a =? b)
  | SRT_NEQUAL_EXPR => Some (negb (a =? b))
  | SRT_LESS_EXPR => Some (a <? b)
  | SRT_GREATER_EXPR => Some (b <? a)
  | SRT_LESSEQ_EXPR => Some (a <=? b)
  | SRT_GREATEREQ_EXPR => Some (b <=? a)
  | _ => None
  end.
(** Pointers point into the lower half of the address space; comparing anything else is undefined. *)
Definition comparable (d : dtype) (v : Z) : bool := if pointer d then v <? 2 ^ 63 else true.
(** Address arithmetic: no object has 2^31 bytes or more, so no larger step stays inside one (6.5.6p8). *)
Definition advance (p step : Z) : res Z :=
  if (- 2 ^ 31 <? step) && (step <? 2 ^ 31) && (0 <=? p + step) && (p + step <? 2 ^ 64) then Ok (p + step) else UB.
(** what [++] adds: 1, or the size of what a pointer points to (1 for void, a gcc extension) *)
Definition unit_of (d : dtype) : Z :=
  match d with DTYPE_POINTER e => if 0 <? sizeof e then sizeof e else 1 | _ => 1 end.
Definition step_by (d : dtype) (v : Z) (up : bool) : res Z :=
  let k := if up then unit_of d else - unit_of d in
  match d with
  | DTYPE_POINTER _ => advance v k
  | DTYPE_CHAR => convert d (v + k)
  | _ => fit d (v + k)
  end.

Definition member_named (n : name) (ms : list (name * dtype * Z)) : option (name * dtype * Z) :=
  find (fun m => name_eqb (fst (fst m)) n) ms.
(** the members of a struct type *)
Definition struct_members (tags : tagtab) (d : dtype) : option (list (name * dtype * Z)) :=
  match d with
  | DTYPE_USTRUCT ms _ _ => Some ms
  | DTYPE_NSTRUCT n _ _ => match tag_search tags n with Some (DTYPE_USTRUCT ms _ _) => Some ms | _ => None end
  | _ => None
  end.

Definition load_as (d : dtype) (a : Z) (W : world) : res Z :=
  match kind d with
  | Some (u, s) => match load (w_mem W) s a with Some x => Ok (interp u s x) | None => UB end
  | None => Fatal
  end.
Definition store_as (d : dtype) (a v : Z) (W : world) : res world :=
  match kind d with
  | Some (_, s) => match store (w_mem W) s a v with Some m => Ok (set_wmem W m) | None => UB end
  | None => Fatal
  end.

(** A call: address of the function, arguments as bit patterns of their sizes, world; the result is a bit
    pattern, of which the bytes of the return type count *)
Definition caller := Z -> list (size * Z) -> world -> res (Z * world).
(** Where named objects are: labels, string literals, and the frame of the current function *)
Record places := mkplaces { p_label : name -> option Z; p_string : Z -> option Z; p_frame : Z }.
(** What is in scope *)
Record scopes := mkscopes { s_syms : symtab; s_tags : tagtab }.

Section Expressions.
Variables (call : caller) (P : places) (Sc : scopes).

Definition var_address (n : name) : res Z :=
  match sym_search (s_syms Sc) n with
  | Some (mksym SYMBOL_LABEL _) => match p_label P n with Some a => Ok a | None => Fatal end
  | Some (mksym (SYMBOL_MEM off) _) => Ok (low S8 (p_frame P - off))
  | _ => Fatal
  end.
(** the offset of a member of what [p] points to *)
Definition member_at (d : option dtype) (n : name) : res Z :=
  match d with
  | Some (DTYPE_POINTER e) =>
      match struct_members (s_tags Sc) e with
      | Some ms => match member_named n ms with Some (_, _, off) => Ok off | None => Fatal end
      | None => Fatal
      end
  | _ => Fatal
  end.
(** arithmetic is on pointers to objects of known size, less than 2^31 bytes *)
Definition pointed_size (d : option dtype) : res Z :=
  match d with
  | Some (DTYPE_POINTER e) => if (0 <? sizeof e) && (sizeof e <? 2 ^ 31) then Ok (sizeof e) else Fatal
  | _ => Fatal
  end.
Definition check (b : bool) : res unit := if b then Ok tt else Fatal.
(** conditions have scalar type *)
Definition scalar_type (d : option dtype) : bool :=
  match d with Some d => match kind d with Some _ => true | None => false end | None => false end.

(** The value of an expression and the world after it *)
Fixpoint eval (e : srt) (W : world) {struct e} : res (Z * world) :=
  match e with
  | Srt SRT_ILITERAL_EXPR (Some d) (SPInt i) _ =>
      match kind d with
      | Some (u, s) => do _ <- check (integer d && in_range u s (lit_value i)); Ok (lit_value i, W)
      | None => Fatal
      end
  | Srt SRT_IDENT_EXPR (Some d) (SPName n) _ =>
      do a <- var_address n; do v <- load_as d a W; Ok (v, W)
  | Srt SRT_ADDR_EXPR (Some (DTYPE_POINTER _)) _ [c] =>
      match c with
      | Srt SRT_IDENT_EXPR _ (SPName n) _ => do a <- var_address n; Ok (a, W)
      | Srt SRT_STR_EXPR _ (SPStrId i) _ => match p_string P i with Some a => Ok (a, W) | None => Fatal end
      | Srt SRT_INDIR_EXPR _ _ [p] =>
          do _ <- check (match srt_dtype p with Some d => pointer d | None => false end); eval p W
      | Srt SRT_TOMEMBER_EXPR _ _ [p; Srt _ _ (SPName n) _] =>
          do (a, W) <- eval p W; do off <- member_at (srt_dtype p) n; do a <- advance a off; Ok (a, W)
      | _ => Fatal
      end
  | Srt SRT_INDIR_EXPR (Some d) _ [p] =>
      do _ <- check (match srt_dtype p with Some d => pointer d | None => false end);
      do (a, W) <- eval p W; do v <- load_as d a W; Ok (v, W)
  | Srt SRT_TOMEMBER_EXPR (Some d) _ [p; Srt _ _ (SPName n) _] =>
      do (a, W) <- eval p W; do off <- member_at (srt_dtype p) n; do a <- advance a off;
      do v <- load_as d a W; Ok (v, W)
  | Srt SRT_ASSIGN_EXPR (Some d) _ [l; r] =>
      do _ <- check (alike (Some d) (srt_dtype r) && match srt_dtype l with Some d => pointer d | None => false end);
      do (v, W) <- eval r W; do (a, W) <- eval l W; do W <- store_as d a v W; Ok (v, W)
  | Srt ((SRT_PREINC_EXPR | SRT_PREDEC_EXPR) as t) (Some d) _ [l] =>
      do _ <- check (match srt_dtype l with Some d => pointer d | None => false end);
      do (a, W) <- eval l W; do v <- load_as d a W;
      do v' <- step_by d v (srttype_beq t SRT_PREINC_EXPR); do W <- store_as d a v' W; Ok (v', W)
  | Srt ((SRT_POSTINC_EXPR | SRT_POSTDEC_EXPR) as t) (Some d) _ [l] =>
      do _ <- check (match srt_dtype l with Some d => pointer d | None => false end);
      do (a, W) <- eval l W; do v <- load_as d a W;
      do v' <- step_by d v (srttype_beq t SRT_POSTINC_EXPR); do W <- store_as d a v' W; Ok (v, W)
  | Srt SRT_COND_EXPR (Some d) _ [c; a; b] =>
      do _ <- check (alike (Some d) (srt_dtype a) && alike (Some d) (srt_dtype b) && scalar_type (srt_dtype c));
      do (x, W) <- eval c W; if x =? 0 then eval b W else eval a W
  | Srt SRT_LAND_EXPR (Some DTYPE_INT) _ [a; b] =>
      do _ <- check (scalar_type (srt_dtype a) && scalar_type (srt_dtype b));
      do (x, W) <- eval a W;
      if x =? 0 then Ok (0, W) else do (y, W) <- eval b W; Ok (truth (negb (y =? 0)), W)
  | Srt SRT_LOR_EXPR (Some DTYPE_INT) _ [a; b] =>
      do _ <- check (scalar_type (srt_dtype a) && scalar_type (srt_dtype b));
      do (x, W) <- eval a W;
      if x =? 0 then do (y, W) <- eval b W; Ok (truth (negb (y =? 0)), W) else Ok (1, W)
  | Srt SRT_LNOT_EXPR (Some DTYPE_INT) _ [a] =>
      do _ <- check (scalar_type (srt_dtype a)); do (x, W) <- eval a W; Ok (truth (x =? 0), W)
  | Srt SRT_POS_EXPR (Some d) _ [a] =>
      do _ <- check (alike (Some d) (srt_dtype a) && integer d); eval a W
  | Srt SRT_NEG_EXPR (Some d) _ [a] =>
      do _ <- check (alike (Some d) (srt_dtype a) && integer d);
      do (x, W) <- eval a W; do v <- fit d (- x); Ok (v, W)
  | Srt SRT_NOT_EXPR (Some d) _ [a] =>
      do _ <- check (alike (Some d) (srt_dtype a) && integer d);
      do (x, W) <- eval a W; do v <- fit d (Z.lnot x); Ok (v, W)
  | Srt ((SRT_EQUAL_EXPR | SRT_NEQUAL_EXPR | SRT_LESS_EXPR | SRT_GREATER_EXPR | SRT_LESSEQ_EXPR | SRT_GREATEREQ_EXPR) as t)
        (Some DTYPE_INT) _ [a; b] =>
      do _ <- check (alike (srt_dtype a) (srt_dtype b));
      do (x, W) <- eval a W; do (y, W) <- eval b W;
      match srt_dtype a with
      | Some d =>
          if comparable d x && comparable d y
          then match relation t x y with Some r => Ok (truth r, W) | None => Fatal end else UB
      | None => Fatal
      end
  | Srt ((SRT_ADD_EXPR | SRT_SUB_EXPR | SRT_MUL_EXPR | SRT_DIV_EXPR | SRT_MOD_EXPR | SRT_AND_EXPR | SRT_OR_EXPR | SRT_XOR_EXPR) as t)
        (Some d) _ [a; b] =>
      do _ <- check (alike (Some d) (srt_dtype a) && alike (Some d) (srt_dtype b) && integer d);
      do (x, W) <- eval a W; do (y, W) <- eval b W; do v <- arith t d x y; Ok (v, W)
  | Srt ((SRT_LSHIFT_EXPR | SRT_RSHIFT_EXPR) as t) (Some d) _ [a; b] =>
      do _ <- check (alike (Some d) (srt_dtype a) && integer d && match srt_dtype b with Some c => integer c | None => false end);
      do (x, W) <- eval a W; do (y, W) <- eval b W; do v <- arith t d x y; Ok (v, W)
  | Srt ((SRT_PADD_EXPR | SRT_PSUB_EXPR) as t) (Some d) _ [p; i] =>
      do _ <- check (alike (Some d) (srt_dtype p) && pointer d && match srt_dtype i with Some c => integer c | None => false end);
      do k <- pointed_size (srt_dtype p);
      do (x, W) <- eval p W; do (y, W) <- eval i W;
      do v <- advance x (if srttype_beq t SRT_PADD_EXPR then y * k else - (y * k)); Ok (v, W)
  | Srt SRT_PDIFF_EXPR (Some d) _ [p; q] =>
      do _ <- check (alike (srt_dtype p) (srt_dtype q) && integer d);
      do k <- pointed_size (srt_dtype p);
      do (x, W) <- eval p W; do (y, W) <- eval q W;
      let v := (x - y) / k in
      match kind d with
      | Some (u, s) => if (0 <? k) && (- 2 ^ 31 <=? x - y) && (x - y <? 2 ^ 31) && ((x - y) mod k =? 0) && in_range u s v then Ok (v, W) else UB
      | None => Fatal
      end
  | Srt SRT_CAST_EXPR (Some d) _ [a] => do (x, W) <- eval a W; do v <- convert d x; Ok (v, W)
  | Srt SRT_CALL_EXPR (Some d) _ [f; Srt SRT_ARG_LIST _ _ args] =>
      do _ <- check (match srt_dtype f with Some d => pointer d | None => false end);
      do (vs, W) <-
        (fix evals (l : list srt) (W : world) {struct l} : res (list (size * Z) * world) :=
           match l with
           | [] => Ok ([], W)
           | a :: r =>
               do (vs, W) <- evals r W; do (v, W) <- eval a W;
               match srt_dtype a with
               | Some c => match kind c with Some (_, s) => Ok ((s, low s v) :: vs, W) | None => Fatal end
               | None => Fatal
               end
           end) args W;
      do (a, W) <- eval f W; do (x, W) <- call a vs W; do v <- convert d x; Ok (v, W)
  | _ => Fatal
  end.
End Expressions.

(** * Statements *)
(** How a statement ends; [Seeking]: the label looked for is not in it *)
Inductive flow := Normal | Break | Continue | Return (v : option (size * Z)) | Seeking.
(** The place inside a switch where execution starts *)
(** the case label whose constant, converted to the type of the controlling expression, is [v] *)
Inductive target := At_case (u : bool) (z : size) (v : Z) | At_default.

Definition enter (Sc : scopes) : scopes := mkscopes (sym_enter (s_syms Sc)) (tag_enter (s_tags Sc)).
Definition leave (Sc : scopes) : res scopes :=
  do y <- sym_exit (s_syms Sc); do t <- tag_exit (s_tags Sc); Ok (mkscopes y t).
(** a declaration inside a function: objects get a place in the frame *)
Definition declare (n : name) (d : dtype) (Sc : scopes) : res scopes :=
  do y <- (if dtype_isobject d then sym_define_memory (s_syms Sc) n d else sym_define_label (s_syms Sc) n d);
  Ok (mkscopes y (s_tags Sc)).
Definition declare_tag (n : name) (d : dtype) (Sc : scopes) : res scopes :=
  match d with
  | DTYPE_USTRUCT ms _ _ => do t <- tag_define_struct (s_tags Sc) n (List.map fst ms); Ok (mkscopes (s_syms Sc) t)
  | DTYPE_NSTRUCT _ _ _ => Fatal
  | _ => Ok Sc
  end.
(** The scope after a statement: names of inner blocks are gone, their frame space is not given back *)
Fixpoint after (s : srt) (Sc : scopes) {struct s} : res scopes :=
  let afters := fix afters (l : list srt) (Sc : scopes) {struct l} : res scopes :=
                  match l with [] => Ok Sc | x :: r => do Sc <- after x Sc; afters r Sc end in
  match s with
  | Srt SRT_CMPD_STMT _ _ cs => do Sc <- afters cs (enter Sc); leave Sc
  | Srt SRT_FOR_STMT _ _ [i; _; _; b] => do Sc <- after i (enter Sc); do Sc <- after b Sc; leave Sc
  | Srt SRT_IF_STMT _ _ [_; a] => after a Sc
  | Srt SRT_IF_STMT _ _ [_; a; b] => do Sc <- after a Sc; after b Sc
  | Srt SRT_WHILE_STMT _ _ [_; b] => after b Sc
  | Srt SRT_SWITCH_STMT _ _ [_; b] => after b Sc
  | Srt SRT_CASE_STMT _ _ [_; b] => after b Sc
  | Srt SRT_DEFAULT_STMT _ _ [b] => after b Sc
  | Srt SRT_DECL_LIST _ _ ds => afters ds Sc
  | Srt SRT_INIT_DECL _ _ (i :: _) => after i Sc
  | Srt SRT_IDENT_DECL (Some d) (SPName n) _ => declare n d Sc
  | Srt SRT_TAG_DECL (Some d) (SPName n) _ => declare_tag n d Sc
  | _ => Ok Sc
  end.
Fixpoint afters (l : list srt) (Sc : scopes) : res scopes :=
  match l with [] => Ok Sc | x :: r => do Sc <- after x Sc; afters r Sc end.

(** the constants of the case labels of a switch body *)
Fixpoint case_constants (s : srt) : list Z :=
  let all := fix all (l : list srt) : list Z := match l with [] => [] | x :: r => case_constants x ++ all r end in
  match s with
  | Srt SRT_CASE_STMT _ _ [Srt _ _ (SPInt i) _; b] => lit_value i :: case_constants b
  | Srt SRT_SWITCH_STMT _ _ _ => []
  | Srt (SRT_CMPD_STMT | SRT_IF_STMT | SRT_WHILE_STMT | SRT_FOR_STMT | SRT_DEFAULT_STMT) _ _ cs => all cs
  | _ => []
  end.

Section Statements.
Variables (call : caller) (P : places).

Fixpoint put_chars (m : memory) (a : Z) (l : list Z) : option memory :=
  match l with
  | [] => Some m
  | c :: r => match store m S1 a c with Some m => put_chars m (a + 1) r | None => None end
  end.
(** [n] bytes at [a] are in the address space *)
Definition in_space (a n : Z) : bool := (0 <=? a) && (a + n <=? 2 ^ 64).
(** Initialise the object of type [d] at [a] (6.7.9): every scalar in order *)
Fixpoint initialise (Sc : scopes) (s : srt) (d : dtype) (a : Z) (W : world) {struct s} : res world :=
  match s with
  | Srt SRT_INIT _ _ cs =>
      match d with
      | DTYPE_ARRAY e n =>
          match cs with
          | [Srt SRT_SLITERAL_EXPR _ (SPStr l) _] =>
              if negb (in_space a (sizeof d)) then UB else
              if Z.of_nat (length l) =? sizeof d then
                match put_chars (w_mem W) a l with Some m => Ok (set_wmem W m) | None => UB end
              else Fatal
          | _ =>
              if Z.of_nat (length cs) =? n then
                (fix elements (l : list srt) (a : Z) (W : world) {struct l} : res world :=
                   match l with
                   | [] => Ok W
                   | c :: r => do W <- initialise Sc c e a W; elements r (a + sizeof e) W
                   end) cs a W
              else Fatal
          end
      | DTYPE_USTRUCT _ _ _ | DTYPE_NSTRUCT _ _ _ =>
          match struct_members (s_tags Sc) d with
          | Some ms =>
              (fix members (l : list srt) (ms : list (name * dtype * Z)) (W : world) {struct l} : res world :=
                 match l, ms with
                 | [], [] => Ok W
                 | c :: r, (_, t, off) :: ms => do W <- initialise Sc c t (a + off) W; members r ms W
                 | _, _ => Fatal
                 end) cs ms W
          | None => Fatal
          end
      | _ =>
          match cs with
          | [e] =>
              do _ <- check (alike (Some d) (srt_dtype e));
              do (v, W) <- eval call P Sc e W; if in_space a (sizeof d) then store_as d a v W else UB
          | _ => Fatal
          end
      end
  | _ => Fatal
  end.

(** one declaration *)
Definition init_declaration (Sc : scopes) (s : srt) (W : world) : res world :=
  match s with
  | Srt SRT_INIT_DECL _ _ [Srt SRT_IDENT_DECL (Some d) (SPName n) _; i] =>
      do Sc <- declare n d Sc;
      match sym_search (s_syms Sc) n with
      | Some (mksym (SYMBOL_MEM off) d) => initialise Sc i d (low S8 (p_frame P - off)) W
      | _ => Fatal
      end
  | _ => Ok W
  end.
Fixpoint declarations (l : list srt) (Sc : scopes) (W : world) : res world :=
  match l with
  | [] => Ok W
  | s :: r => do W <- init_declaration Sc s W; do Sc <- after s Sc; declarations r Sc W
  end.

Definition condition (Sc : scopes) (e : srt) (W : world) : res (Z * world) :=
  do _ <- check (scalar_type (srt_dtype e)); eval call P Sc e W.

(** [m]: [None], execute the statement; [Some t], start at the label [t] if it is inside *)
Fixpoint exec (fuel : nat) (m : option target) (s : srt) (Sc : scopes) (W : world) {struct fuel} : res (flow * world) :=
  match fuel with
  | O => Fuel
  | S n =>
      let idle := Ok (match m with None => Normal | Some _ => Seeking end, W) in
      let loop (r : res (flow * world)) (again : world -> res (flow * world)) :=
        do (f, W) <- r;
        match f with
        | Normal | Continue => again W
        | Break => Ok (Normal, W)
        | Return v => Ok (Return v, W)
        | Seeking => Ok (Seeking, W)
        end in
      match s with
      | Srt (SRT_NULL_STMT | SRT_TAG_DECL) _ _ _ => idle
      | Srt SRT_EXPR_STMT _ _ [e] =>
          match m with Some _ => idle | None => do (_, W) <- eval call P Sc e W; Ok (Normal, W) end
      | Srt SRT_DECL_LIST _ _ ds =>
          match m with Some _ => idle | None => do W <- declarations ds Sc W; Ok (Normal, W) end
      | Srt SRT_BREAK_STMT _ _ _ => match m with Some _ => idle | None => Ok (Break, W) end
      | Srt SRT_CONTINUE_STMT _ _ _ => match m with Some _ => idle | None => Ok (Continue, W) end
      | Srt SRT_RET_STMT _ _ [] => match m with Some _ => idle | None => Ok (Return None, W) end
      | Srt SRT_RET_STMT _ _ [e] =>
          match m with
          | Some _ => idle
          | None =>
              do (v, W) <- eval call P Sc e W;
              match srt_dtype e with
              | Some d => match kind d with Some (_, s) => Ok (Return (Some (s, low s v)), W) | None => Fatal end
              | None => Fatal
              end
          end
      | Srt SRT_CMPD_STMT _ _ cs => exec_list n m cs (enter Sc) W
      | Srt SRT_CASE_STMT _ _ [Srt _ _ (SPInt i) _; b] =>
          match m with
          | Some (At_case u z v) => exec n (if interp u z (lit_value i) =? v then None else m) b Sc W
          | _ => exec n m b Sc W
          end
      | Srt SRT_DEFAULT_STMT _ _ [b] =>
          match m with Some At_default => exec n None b Sc W | _ => exec n m b Sc W end
      | Srt SRT_IF_STMT _ _ [c; a] =>
          match m with
          | Some _ => exec n m a Sc W
          | None => do (x, W) <- condition Sc c W; if x =? 0 then Ok (Normal, W) else exec n None a Sc W
          end
      | Srt SRT_IF_STMT _ _ [c; a; b] =>
          do Sc' <- after a Sc;
          match m with
          | Some _ =>
              do (f, W) <- exec n m a Sc W;
              match f with Seeking => exec n m b Sc' W | _ => Ok (f, W) end
          | None => do (x, W) <- condition Sc c W; if x =? 0 then exec n None b Sc' W else exec n None a Sc W
          end
      | Srt SRT_WHILE_STMT _ _ [c; b] =>
          match m with
          | Some _ => loop (exec n m b Sc W) (fun W => exec n None s Sc W)
          | None =>
              do (x, W) <- condition Sc c W;
              if x =? 0 then Ok (Normal, W) else loop (exec n None b Sc W) (fun W => exec n None s Sc W)
          end
      | Srt SRT_FOR_STMT _ _ [i; c; u; b] =>
          do (_, W) <- match m with None => exec n None i (enter Sc) W | Some _ => Ok (Normal, W) end;
          do Sc <- after i (enter Sc);
          exec_for n m c u b Sc W
      | Srt SRT_SWITCH_STMT _ _ [c; b] =>
          match m with
          | Some _ => idle
          | None =>
              do (v, W) <- eval call P Sc c W;
              match srt_dtype c with
              | Some d =>
                  match kind d with
                  | Some (u, z) =>
                      let found := existsb (fun k => interp u z k =? v) (case_constants b) in
                      do (f, W) <- exec n (Some (if found then At_case u z v else At_default)) b Sc W;
                      match f with Break | Seeking => Ok (Normal, W) | _ => Ok (f, W) end
                  | None => Fatal
                  end
              | None => Fatal
              end
          end
      | _ => Fatal
      end
  end
with exec_list (fuel : nat) (m : option target) (l : list srt) (Sc : scopes) (W : world) {struct fuel} : res (flow * world) :=
  match fuel with
  | O => Fuel
  | S n =>
      match l with
      | [] => Ok (match m with None => Normal | Some _ => Seeking end, W)
      | s :: r =>
          do (f, W) <- exec n m s Sc W;
          do Sc <- after s Sc;
          match f with
          | Normal => exec_list n None r Sc W
          | Seeking => exec_list n m r Sc W
          | _ => Ok (f, W)
          end
      end
  end
(** the loop of a for statement after its first clause *)
with exec_for (fuel : nat) (m : option target) (c u b : srt) (Sc : scopes) (W : world) {struct fuel} : res (flow * world) :=
  match fuel with
  | O => Fuel
  | S n =>
      do (go, W) <-
        match m, c with
        | Some _, _ => Ok (true, W)
        | None, Srt SRT_EXPR_STMT _ _ [e] => do (x, W) <- condition Sc e W; Ok (negb (x =? 0), W)
        | None, Srt SRT_NULL_STMT _ _ _ => Ok (true, W)
        | None, _ => Fatal
        end;
      if go : bool then
        do (f, W) <- exec n m b Sc W;
        match f with
        | Normal | Continue =>
            do Sc' <- after b Sc;
            do (_, W) <- exec n None u Sc' W; exec_for n None c u b Sc W
        | Break => Ok (Normal, W)
        | Return v => Ok (Return v, W)
        | Seeking => Ok (Seeking, W)
        end
      else Ok (Normal, W)
  end.
End Statements.
