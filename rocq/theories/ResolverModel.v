(** Model of src/resolver: name resolution and type checking, AST to SRT.

    An error is reported by value ([None]) and not by [Err], because the loops over declarations,
    statements, arguments, members and parameters go on with the next item after an error: the
    resolver state continues. The wording and the number of the messages are not modelled. *)
From Verif Require Export SrtModel.
Open Scope Z_scope.

(** resolver.h:9-28 Resolver. [r_tu] the children of trans_unit_srt; [r_scope] the children of
    scope_srt, [None] when scope_srt is trans_unit_srt itself. [specifier_dtype], [expr_dtype],
    [initialized_dtype] and [is_nested_initializing], which every C function saves and restores,
    are arguments of the model functions. *)
Record rst := mkrst {
  r_tu : list srt;
  r_scope : option (list srt);
  r_syms : symtab;
  r_tags : tagtab;
  r_loop : bool;
  r_cases : option (list Z);
  r_default : bool;
  r_ret : option dtype;
  r_enum : Z;
  r_off : Z;
  r_sid : Z
}.
(** resolver.c:6-25 new_resolver, with the assignments of external.c:14-15 *)
Definition new_resolver : rst := mkrst [] None new_symtab new_tagtab false None false None 0 (-1) (-1).

Definition set_tu x s := mkrst x (r_scope s) (r_syms s) (r_tags s) (r_loop s) (r_cases s) (r_default s) (r_ret s) (r_enum s) (r_off s) (r_sid s).
Definition set_scope x s := mkrst (r_tu s) x (r_syms s) (r_tags s) (r_loop s) (r_cases s) (r_default s) (r_ret s) (r_enum s) (r_off s) (r_sid s).
Definition set_syms x s := mkrst (r_tu s) (r_scope s) x (r_tags s) (r_loop s) (r_cases s) (r_default s) (r_ret s) (r_enum s) (r_off s) (r_sid s).
Definition set_tags x s := mkrst (r_tu s) (r_scope s) (r_syms s) x (r_loop s) (r_cases s) (r_default s) (r_ret s) (r_enum s) (r_off s) (r_sid s).
Definition set_loop x s := mkrst (r_tu s) (r_scope s) (r_syms s) (r_tags s) x (r_cases s) (r_default s) (r_ret s) (r_enum s) (r_off s) (r_sid s).
Definition set_cases x s := mkrst (r_tu s) (r_scope s) (r_syms s) (r_tags s) (r_loop s) x (r_default s) (r_ret s) (r_enum s) (r_off s) (r_sid s).
Definition set_default x s := mkrst (r_tu s) (r_scope s) (r_syms s) (r_tags s) (r_loop s) (r_cases s) x (r_ret s) (r_enum s) (r_off s) (r_sid s).
Definition set_ret x s := mkrst (r_tu s) (r_scope s) (r_syms s) (r_tags s) (r_loop s) (r_cases s) (r_default s) x (r_enum s) (r_off s) (r_sid s).
Definition set_enum x s := mkrst (r_tu s) (r_scope s) (r_syms s) (r_tags s) (r_loop s) (r_cases s) (r_default s) (r_ret s) x (r_off s) (r_sid s).
Definition set_off x s := mkrst (r_tu s) (r_scope s) (r_syms s) (r_tags s) (r_loop s) (r_cases s) (r_default s) (r_ret s) (r_enum s) x (r_sid s).
Definition set_sid x s := mkrst (r_tu s) (r_scope s) (r_syms s) (r_tags s) (r_loop s) (r_cases s) (r_default s) (r_ret s) (r_enum s) (r_off s) x.

(** `vector_push(resolver->scope_srt->children, x)` *)
Definition push_scope (x : srt) (s : rst) : rst :=
  match r_scope s with
  | None => set_tu (r_tu s ++ [x]) s
  | Some l => set_scope (Some (l ++ [x])) s
  end.

(** resolverret.h: a result or errors, with the state reached *)
Definition rres A := res (option A * rst).
Definition rok {A} (a : A) (st : rst) : rres A := Ok (Some a, st).
Definition rerr {A} (st : rst) : rres A := Ok (None, st).
Definition rbind {A B} (m : rres A) (k : A -> rst -> rres B) : rres B :=
  match m with
  | Ok (Some a, st) => k a st
  | Ok (None, st) => Ok (None, st)
  | Err => Err
  | UB => UB
  | Fatal => Fatal
  | Fuel => Fuel
  end.
Notation "'rtry' a , s <- m ; k" := (rbind m (fun a s => k))
  (at level 200, a pattern, s pattern, m at level 100, k at level 200, right associativity) : res_scope.

(** A loop over items that goes on after an error and returns the results when there was none. *)
Fixpoint rmap {A B} (f : A -> rst -> rres B) (l : list A) (st : rst) : rres (list B) :=
  match l with
  | [] => rok [] st
  | x :: r =>
      do (o, st) <- f x st;
      do (os, st) <- rmap f r st;
      Ok (match o, os with Some b, Some bs => Some (b :: bs) | _, _ => None end, st)
  end.

(** vector_at(ast->children, i), dereferenced by every caller that uses this *)
Definition child (a : ast) (i : nat) : res ast := deref (nth_error (ast_children a) i).
Definition nchildren (a : ast) : nat := length (ast_children a).
Definition ast_is (a : ast) (t : asttype) : bool := asttype_eqb (ast_type a) t.
(** ast->ident_name, ast->iliteral, ast->sliteral *)
Definition ast_name (a : ast) : res name := match ast_payload a with PName n => Ok n | _ => UB end.
Definition ast_iliteral (a : ast) : res iliteral := match ast_payload a with PInt i => Ok i | _ => UB end.
Definition ast_sliteral (a : ast) : res sliteral := match ast_payload a with PStr s => Ok s | _ => UB end.

(** * conversion.c *)
(** conversion.c:7-26; dtype_copy(NULL) dereferences *)
Definition convert_to_ptr (s : srt) : res srt :=
  do d <- dty s; Ok (new_dtyped_srt SRT_ADDR_EXPR (DTYPE_POINTER d) [s]).
Definition convert_to_ptr_if_array (s : srt) : srt :=
  match srt_dtype s with
  | Some (DTYPE_ARRAY e _) => new_dtyped_srt SRT_ADDR_EXPR (DTYPE_POINTER e) [s]
  | _ => s
  end.
Definition convert_to_ptr_if_function (s : srt) : srt :=
  match srt_dtype s with
  | Some (DTYPE_FUNCTION _ _ as d) => new_dtyped_srt SRT_ADDR_EXPR (DTYPE_POINTER d) [s]
  | _ => s
  end.
(** the two calls that nearly always follow each other *)
Definition decay (s : srt) : srt := convert_to_ptr_if_function (convert_to_ptr_if_array s).
Definition cast (d : dtype) (s : srt) : srt := new_dtyped_srt SRT_CAST_EXPR d [s].

(** conversion.c:102-112 *)
Definition perform_integer_promotion (s : srt) : srt :=
  match srt_dtype s with
  | Some DTYPE_CHAR => cast DTYPE_INT s
  | _ => s
  end.
(** conversion.c:114-125 *)
Definition get_unsigned_corresponding_signed (d : dtype) : dtype :=
  match d with
  | DTYPE_INT => DTYPE_UNSIGNED_INT
  | DTYPE_LONG => DTYPE_UNSIGNED_LONG
  | DTYPE_LONGLONG => DTYPE_UNSIGNED_LONGLONG
  | _ => DTYPE_VOID
  end.
(** conversion.c:28-100. In the last two cases new_integer_dtype(DTYPE_VOID) builds a void dtype; that needs
    two different enum dtypes, which no expression has (enum specifiers resolve to int, declaration.c:416-469). *)
Definition perform_usual_arithmetic_conversion (l r : srt) : srt * srt :=
  match srt_dtype l, srt_dtype r with
  | Some dl0, Some dr0 =>
      if negb (dtype_isarithmetic dl0) || negb (dtype_isarithmetic dr0) then (l, r)
      else
        let l := perform_integer_promotion l in
        let r := perform_integer_promotion r in
        match srt_dtype l, srt_dtype r with
        | Some dl, Some dr =>
            if dtype_equals dl dr then (l, r)
            else
              let lk := dtype_scalar_rank dl in let rk := dtype_scalar_rank dr in
              let ln := dtype_nbytes dl in let rn := dtype_nbytes dr in
              let ls := dtype_issignedinteger dl in let rs := dtype_issignedinteger dr in
              let lu := dtype_isunsignedinteger dl in let ru := dtype_isunsignedinteger dr in
              if ls && rs && (lk >? rk) then (l, cast dl r)
              else if ls && rs && (lk <? rk) then (cast dr l, r)
              else if lu && ru && (lk >? rk) then (l, cast dl r)
              else if lu && ru && (lk <? rk) then (cast dr l, r)
              else if lu && rs && (lk >=? rk) then (l, cast dl r)
              else if ls && ru && (lk <=? rk) then (cast dr l, r)
              else if ls && ru && (ln >? rn) then (l, cast dl r)
              else if lu && rs && (ln <? rn) then (cast dr l, r)
              else if ls then
                let d := get_unsigned_corresponding_signed dl in (cast d l, cast d r)
              else if rs then
                let d := get_unsigned_corresponding_signed dr in (cast d l, cast d r)
              else (l, r)
        | _, _ => (l, r)
        end
  | _, _ => (l, r)
  end.

(** * utils.c *)
(** utils.c:3-27 sort_ast_type on an array of type numbers *)
Definition arr_get (l : list Z) (i : Z) : res Z := if i <? 0 then UB else deref (nth_error l (Z.to_nat i)).
Definition arr_set (l : list Z) (i x : Z) : res (list Z) := if i <? 0 then UB else deref (list_set l (Z.to_nat i) x).
(** utils.c:13-15 `while (i < j && ast_types[j] > pivot) j--;` *)
Fixpoint sort_down (fuel : nat) (l : list Z) (i j pivot : Z) : res Z :=
  match fuel with
  | O => Fuel
  | S f => if i <? j then do x <- arr_get l j; if x >? pivot then sort_down f l i (j - 1) pivot else Ok j else Ok j
  end.
(** utils.c:17-19 `while (i < j && ast_types[i] <= pivot) i++;` *)
Fixpoint sort_up (fuel : nat) (l : list Z) (i j pivot : Z) : res Z :=
  match fuel with
  | O => Fuel
  | S f => if i <? j then do x <- arr_get l i; if x <=? pivot then sort_up f l (i + 1) j pivot else Ok i else Ok i
  end.
(** utils.c:12-21 *)
Fixpoint sort_partition (fuel : nat) (l : list Z) (i j pivot : Z) : res (list Z * Z * Z) :=
  match fuel with
  | O => Fuel
  | S f =>
      if i <? j then
        do j <- sort_down fuel l i j pivot;
        do x <- arr_get l j; do l <- arr_set l i x;
        do i <- sort_up fuel l i j pivot;
        do x <- arr_get l i; do l <- arr_set l j x;
        sort_partition f l i j pivot
      else Ok (l, i, j)
  end.
Fixpoint sort_ast_type (fuel : nat) (l : list Z) (b e : Z) : res (list Z) :=
  match fuel with
  | O => Fuel
  | S f =>
      if b >=? e then Ok l
      else
        do pivot <- arr_get l b;
        do (l, i, j) <- sort_partition fuel l b e pivot;
        do l <- arr_set l i pivot;
        do l <- sort_ast_type f l b (i - 1);
        sort_ast_type f l (j + 1) e
  end.
(** utils.c:29-46 *)
Definition ast_is_void_parameter_list (a : ast) : res bool :=
  if negb (Nat.eqb (nchildren a) 1) then Ok false
  else
    do p <- child a 0;
    do specs <- child p 0;
    if negb (Nat.eqb (nchildren specs) 1) then Ok false
    else
      do spec <- child specs 0;
      do terminal <- child p 1;
      Ok (ast_is spec AST_TYPE_VOID && ast_is terminal AST_ABS_DECLOR).

(** The mutually recursive resolve functions, tied by fuel at the end of the file. *)
Record knot := mkknot {
  k_expr : ast -> rst -> rres srt;
  k_tyname : ast -> rst -> rres dtype;
  k_specs : ast -> rst -> rres dtype;
  k_declor : dtype -> list link -> ast -> rst -> rres (option name * list link);
  k_init : dtype -> bool -> ast -> rst -> rres srt;
  k_zero : tagtab -> dtype -> res srt;
  k_stmt : ast -> rst -> rres srt
}.

Section Bodies.
Variable k : knot.

Definition expr_at (a : ast) (i : nat) (st : rst) : rres srt := do x <- child a i; k_expr k x st.
(** the two operands, with the array and function conversions *)
Definition operands (a : ast) (st : rst) : rres (srt * srt) :=
  rtry l, st <- expr_at a 0 st;
  rtry r, st <- expr_at a 1 st;
  rok (decay l, decay r) st.

(** * expression.c *)
(** expression.c:106-160 *)
Definition resolve_assignment_expr (a : ast) (st : rst) : rres srt :=
  rtry l, st <- expr_at a 0 st;
  rtry r, st <- expr_at a 1 st;
  let r := decay r in
  if negb (srt_ismodifiable l) then rerr st
  else
    do dl <- dty l; do dr <- dty r;
    if negb (dtype_isassignable dl dr) then rerr st
    else
      let r := if dtype_equals dr dl then r else cast dl r in
      do p <- convert_to_ptr l;
      rok (new_dtyped_srt SRT_ASSIGN_EXPR dl [p; r]) st.

(** expression.c:171-206 *)
Definition binop_of_compound (t : asttype) : option asttype :=
  match t with
  | AST_MUL_ASSIGN_EXPR => Some AST_MUL_EXPR
  | AST_DIV_ASSIGN_EXPR => Some AST_DIV_EXPR
  | AST_MOD_ASSIGN_EXPR => Some AST_MOD_EXPR
  | AST_ADD_ASSIGN_EXPR => Some AST_ADD_EXPR
  | AST_SUB_ASSIGN_EXPR => Some AST_SUB_EXPR
  | AST_LSHIFT_ASSIGN_EXPR => Some AST_LSHIFT_EXPR
  | AST_RSHIFT_ASSIGN_EXPR => Some AST_RSHIFT_EXPR
  | AST_OR_ASSIGN_EXPR => Some AST_OR_EXPR
  | AST_XOR_ASSIGN_EXPR => Some AST_XOR_EXPR
  | AST_AND_ASSIGN_EXPR => Some AST_AND_EXPR
  | _ => None
  end.
(** expression.c:162-220 *)
Definition resolve_compound_assignment_expr (a : ast) (st : rst) : rres srt :=
  do l <- child a 0; do r <- child a 1;
  match binop_of_compound (ast_type a) with
  | None => Fatal
  | Some t => resolve_assignment_expr (new_ast AST_ASSIGN_EXPR [l; new_ast t [l; r]]) st
  end.

(** expression.c:222-291 *)
Definition resolve_conditional_expr (a : ast) (st : rst) : rres srt :=
  rtry c, st <- expr_at a 0 st;
  let c := decay c in
  do dc <- dty c;
  if negb (dtype_isscalar dc) then rerr st
  else
    rtry l, st <- expr_at a 1 st;
    let l := decay l in
    rtry r, st <- expr_at a 2 st;
    let r := decay r in
    do dl <- dty l; do dr <- dty r;
    if dtype_isarithmetic dl && dtype_isarithmetic dr then
      let (l, r) := perform_usual_arithmetic_conversion l r in
      do dl <- dty l;
      rok (new_dtyped_srt SRT_COND_EXPR dl [c; l; r]) st
    else if is_pointer dl && is_pointer dr && dtype_iscompatible dl dr then
      rok (new_dtyped_srt SRT_COND_EXPR dl [c; l; r]) st
    else if is_struct dl && is_struct dr && dtype_equals dl dr then
      rok (new_dtyped_srt SRT_COND_EXPR dl [c; l; r]) st
    else rerr st.

(** expression.c:293-372 *)
Definition resolve_logical_expr (a : ast) (st : rst) : rres srt :=
  rtry (l, r), st <- operands a st;
  match ast_type a with
  | AST_LOR_EXPR | AST_LAND_EXPR =>
      do dl <- dty l; do dr <- dty r;
      if dtype_isscalar dl && dtype_isscalar dr then
        rok (new_dtyped_srt (if ast_is a AST_LOR_EXPR then SRT_LOR_EXPR else SRT_LAND_EXPR) DTYPE_INT [l; r]) st
      else rerr st
  | _ => Fatal
  end.

(** expression.c:374-451 *)
Definition resolve_bitwise_expr (a : ast) (st : rst) : rres srt :=
  rtry (l, r), st <- operands a st;
  let (l, r) := perform_usual_arithmetic_conversion l r in
  do t <- match ast_type a with
          | AST_OR_EXPR => Ok SRT_OR_EXPR
          | AST_XOR_EXPR => Ok SRT_XOR_EXPR
          | AST_AND_EXPR => Ok SRT_AND_EXPR
          | _ => Fatal
          end;
  do dl <- dty l; do dr <- dty r;
  if negb (dtype_isinteger dl) || negb (dtype_isinteger dr) then rerr st
  else rok (new_dtyped_srt t dl [l; r]) st.

(** expression.c:483-492 and 567-576 *)
Definition comparable (l r : srt) : res (option (srt * srt)) :=
  do dl <- dty l; do dr <- dty r;
  if dtype_isarithmetic dl && dtype_isarithmetic dr then Ok (Some (perform_usual_arithmetic_conversion l r))
  else if is_pointer dl && is_pointer dr && dtype_iscompatible dl dr then Ok (Some (l, r))
  else Ok None.
(** expression.c:453-535 *)
Definition resolve_equality_expr (a : ast) (st : rst) : rres srt :=
  rtry (l, r), st <- operands a st;
  do o <- comparable l r;
  do t <- match ast_type a with
          | AST_EQUAL_EXPR => Ok SRT_EQUAL_EXPR
          | AST_NEQUAL_EXPR => Ok SRT_NEQUAL_EXPR
          | _ => Fatal
          end;
  match o with
  | None => rerr st
  | Some (l, r) => rok (new_dtyped_srt t DTYPE_INT [l; r]) st
  end.
(** expression.c:537-648 *)
Definition resolve_relational_expr (a : ast) (st : rst) : rres srt :=
  rtry (l, r), st <- operands a st;
  do o <- comparable l r;
  do t <- match ast_type a with
          | AST_LESS_EXPR => Ok SRT_LESS_EXPR
          | AST_GREATER_EXPR => Ok SRT_GREATER_EXPR
          | AST_LESSEQ_EXPR => Ok SRT_LESSEQ_EXPR
          | AST_GREATEREQ_EXPR => Ok SRT_GREATEREQ_EXPR
          | _ => Fatal
          end;
  match o with
  | None => rerr st
  | Some (l, r) => rok (new_dtyped_srt t DTYPE_INT [l; r]) st
  end.

(** expression.c:650-717 *)
Definition resolve_shift_expr (a : ast) (st : rst) : rres srt :=
  rtry (l, r), st <- operands a st;
  let (l, r) := perform_usual_arithmetic_conversion l r in
  do t <- match ast_type a with
          | AST_LSHIFT_EXPR => Ok SRT_LSHIFT_EXPR
          | AST_RSHIFT_EXPR => Ok SRT_RSHIFT_EXPR
          | _ => Fatal
          end;
  do dl <- dty l; do dr <- dty r;
  if negb (dtype_isinteger dl) || negb (dtype_isinteger dr) then rerr st
  else rok (new_dtyped_srt t dl [l; r]) st.

(** expression.c:746-800 *)
Definition resolve_add_expr (a : ast) (st : rst) : rres srt :=
  rtry (l, r), st <- operands a st;
  do dl <- dty l; do dr <- dty r;
  if dtype_isarithmetic dl && dtype_isarithmetic dr then
    let (l, r) := perform_usual_arithmetic_conversion l r in
    do dl <- dty l;
    rok (new_dtyped_srt SRT_ADD_EXPR dl [l; r]) st
  else if is_pointer dl && dtype_isinteger dr then rok (new_dtyped_srt SRT_PADD_EXPR dl [l; r]) st
  else if dtype_isinteger dl && is_pointer dr then rok (new_dtyped_srt SRT_PADD_EXPR dr [r; l]) st
  else rerr st.
(** expression.c:802-861 *)
Definition resolve_subtract_expr (a : ast) (st : rst) : rres srt :=
  rtry (l, r), st <- operands a st;
  do dl <- dty l; do dr <- dty r;
  if dtype_isarithmetic dl && dtype_isarithmetic dr then
    let (l, r) := perform_usual_arithmetic_conversion l r in
    do dl <- dty l;
    rok (new_dtyped_srt SRT_SUB_EXPR dl [l; r]) st
  else if is_pointer dl && dtype_isinteger dr then rok (new_dtyped_srt SRT_PSUB_EXPR dl [l; r]) st
  else if is_pointer dl && is_pointer dr && dtype_iscompatible dl dr then
    rok (new_dtyped_srt SRT_PDIFF_EXPR DTYPE_UNSIGNED_LONGLONG [l; r]) st
  else rerr st.
(** expression.c:719-744 *)
Definition resolve_additive_expr (a : ast) (st : rst) : rres srt :=
  match ast_type a with
  | AST_ADD_EXPR => resolve_add_expr a st
  | AST_SUB_EXPR => resolve_subtract_expr a st
  | _ => Fatal
  end.

(** expression.c:863-939 *)
Definition resolve_multiplicative_expr (a : ast) (st : rst) : rres srt :=
  rtry (l, r), st <- operands a st;
  let (l, r) := perform_usual_arithmetic_conversion l r in
  do dl <- dty l; do dr <- dty r;
  match ast_type a with
  | AST_MUL_EXPR =>
      if negb (dtype_isarithmetic dl) || negb (dtype_isarithmetic dr) then rerr st
      else rok (new_dtyped_srt SRT_MUL_EXPR dl [l; r]) st
  | AST_DIV_EXPR =>
      if negb (dtype_isarithmetic dl) || negb (dtype_isarithmetic dr) then rerr st
      else rok (new_dtyped_srt SRT_DIV_EXPR dl [l; r]) st
  | AST_MOD_EXPR =>
      if negb (dtype_isinteger dl) || negb (dtype_isinteger dr) then rerr st
      else rok (new_dtyped_srt SRT_MOD_EXPR dl [l; r]) st
  | _ => Fatal
  end.

(** expression.c:941-975 *)
Definition resolve_cast_expr (a : ast) (st : rst) : rres srt :=
  do t <- child a 0;
  rtry d, st <- k_tyname k t st;
  rtry c, st <- expr_at a 1 st;
  do dc <- dty c;
  if negb (is_void d) && (negb (dtype_isscalar d) || negb (dtype_isscalar dc)) then rerr st
  else rok (cast d c) st.

(** expression.c:1030-1058 *)
Definition resolve_address_expr (a : ast) (st : rst) : rres srt :=
  rtry c, st <- expr_at a 0 st;
  do d <- dty c;
  if negb (is_function d) && negb (srt_is c SRT_INDIR_EXPR) &&
     (negb (srt_is c SRT_IDENT_EXPR) || negb (dtype_isobject d)) then rerr st
  else rok (new_dtyped_srt SRT_ADDR_EXPR (DTYPE_POINTER d) [c]) st.
(** expression.c:1060-1089 *)
Definition resolve_indirection_expr (a : ast) (st : rst) : rres srt :=
  rtry c, st <- expr_at a 0 st;
  let c := decay c in
  do d <- dty c;
  match d with
  | DTYPE_POINTER e => rok (new_dtyped_srt SRT_INDIR_EXPR e [c]) st
  | _ => rerr st
  end.
(** expression.c:1091-1119 *)
Definition resolve_sign_expr (t : srttype) (a : ast) (st : rst) : rres srt :=
  rtry c, st <- expr_at a 0 st;
  do d <- dty c;
  if negb (dtype_isarithmetic d) then rerr st
  else
    let c := perform_integer_promotion c in
    do d <- dty c;
    rok (new_dtyped_srt t d [c]) st.
(** expression.c:1121-1149 *)
Definition resolve_bitwise_not_expr (a : ast) (st : rst) : rres srt :=
  rtry c, st <- expr_at a 0 st;
  do d <- dty c;
  if negb (dtype_isinteger d) then rerr st
  else
    let c := perform_integer_promotion c in
    do d <- dty c;
    rok (new_dtyped_srt SRT_NOT_EXPR d [c]) st.
(** expression.c:1151-1180 *)
Definition resolve_logical_not_expr (a : ast) (st : rst) : rres srt :=
  rtry c, st <- expr_at a 0 st;
  let c := decay c in
  do d <- dty c;
  if negb (dtype_isscalar d) then rerr st
  else rok (new_dtyped_srt SRT_LNOT_EXPR DTYPE_INT [c]) st.
(** expression.c:1182-1220 *)
Definition resolve_sizeof_expr (a : ast) (st : rst) : rres srt :=
  do c <- child a 0;
  rtry d, st <- (if ast_is c AST_TYPE_NAME then k_tyname k c st
                 else rtry s, st <- k_expr k c st; do d <- dty s; rok d st);
  if is_function d || dtype_isincomplete d then rerr st
  else rok (new_iliteral_srt DTYPE_INT (new_signed IInt (dtype_nbytes d))) st.

(** expression.c:1437-1472 *)
Definition resolve_incdec_expr (t : srttype) (a : ast) (st : rst) : rres srt :=
  rtry s, st <- expr_at a 0 st;
  if negb (srt_ismodifiable s) then rerr st
  else
    do d <- dty s;
    if negb (dtype_isinteger d) && negb (is_pointer d) then rerr st
    else
      do p <- convert_to_ptr s;
      rok (new_dtyped_srt t d [p]) st.

(** expression.c:977-1028 *)
Definition resolve_unary_expr (a : ast) (st : rst) : rres srt :=
  match ast_type a with
  | AST_PREINC_EXPR => resolve_incdec_expr SRT_PREINC_EXPR a st
  | AST_PREDEC_EXPR => resolve_incdec_expr SRT_PREDEC_EXPR a st
  | AST_ADDR_EXPR => resolve_address_expr a st
  | AST_INDIR_EXPR => resolve_indirection_expr a st
  | AST_POS_EXPR => resolve_sign_expr SRT_POS_EXPR a st
  | AST_NEG_EXPR => resolve_sign_expr SRT_NEG_EXPR a st
  | AST_NOT_EXPR => resolve_bitwise_not_expr a st
  | AST_LNOT_EXPR => resolve_logical_not_expr a st
  | AST_SIZEOF_EXPR => resolve_sizeof_expr a st
  | _ => Fatal
  end.

(** expression.c:1261-1320 *)
Definition resolve_subscription_expr (a : ast) (st : rst) : rres srt :=
  rtry (l, r), st <- operands a st;
  do dl <- dty l; do dr <- dty r;
  if (negb (is_pointer dl) || negb (dtype_isinteger dr)) && (negb (dtype_isinteger dl) || negb (is_pointer dr)) then rerr st
  else
    let (p, i) := if is_pointer dr then (r, l) else (l, r) in
    do dp <- dty p;
    match dp with
    | DTYPE_POINTER e =>
        if negb (dtype_isobject e) then rerr st
        else rok (new_dtyped_srt SRT_INDIR_EXPR e [new_dtyped_srt SRT_PADD_EXPR dp [p; i]]) st
    | _ => UB
    end.

(** expression.c:1492-1529 *)
Definition resolve_argument (pa : (option name * dtype) * ast) (st : rst) : rres srt :=
  let '((_, dp), a) := pa in
  rtry c, st <- k_expr k a st;
  let c := decay c in
  do dc <- dty c;
  if negb (dtype_isassignable dp dc) then rerr st
  else rok (if dtype_equals dp dc then c else cast dp c) st.
(** expression.c:1474-1537 *)
Definition resolve_argument_expr_list (params : list (option name * dtype)) (a : ast) (st : rst) : rres srt :=
  if negb (Nat.eqb (length params) (nchildren a)) then rerr st
  else
    rtry cs, st <- rmap resolve_argument (combine params (ast_children a)) st;
    rok (new_srt SRT_ARG_LIST cs) st.
(** expression.c:1322-1365 *)
Definition resolve_call_expr (a : ast) (st : rst) : rres srt :=
  rtry l, st <- expr_at a 0 st;
  let l := decay l in
  do dl <- dty l;
  match dl with
  | DTYPE_POINTER (DTYPE_FUNCTION ps ret) =>
      do args <- child a 1;
      rtry r, st <- resolve_argument_expr_list ps args st;
      rok (new_dtyped_srt SRT_CALL_EXPR ret [l; r]) st
  | _ => rerr st
  end.

(** expression.c:1539-1557 *)
Fixpoint find_member (ms : list (name * dtype * Z)) (n : name) : option dtype :=
  match ms with
  | [] => None
  | (m, d, _) :: r => if name_eqb m n then Some d else find_member r n
  end.
Definition resolve_member_name_expr (d : dtype) (a : ast) (st : rst) : rres srt :=
  match d with
  | DTYPE_USTRUCT ms _ _ =>
      do n <- ast_name a;
      match find_member ms n with
      | Some md => rok (new_identifier_srt SRT_IDENT_EXPR md n) st
      | None => rerr st
      end
  | _ => UB
  end.
(** expression.c:1367-1435 *)
Definition resolve_member_like_expr (a : ast) (st : rst) : rres srt :=
  rtry l, st <- expr_at a 0 st;
  do dl <- dty l;
  let arrow := ast_is a AST_TOMEMBER_EXPR in
  if ast_is a AST_MEMBER_EXPR && negb (is_struct dl) then rerr st
  else if arrow && negb (match dl with DTYPE_POINTER e => is_struct e | _ => false end) then rerr st
  else
    do (l, sd) <- match dl with
                  | DTYPE_NSTRUCT _ _ _ | DTYPE_USTRUCT _ _ _ => Ok (new_dtyped_srt SRT_ADDR_EXPR (DTYPE_POINTER dl) [l], dl)
                  | DTYPE_POINTER e => Ok (l, e)
                  | _ => UB
                  end;
    do o <- match sd with
            | DTYPE_NSTRUCT n _ _ => Ok (tag_search (r_tags st) n)
            | DTYPE_USTRUCT _ _ _ => Ok (Some sd)
            | _ => UB
            end;
    match o with
    | None => rerr st
    | Some d =>
        do m <- child a 1;
        rtry r, st <- resolve_member_name_expr d m st;
        do dr <- dty r;
        rok (new_dtyped_srt SRT_TOMEMBER_EXPR dr [l; r]) st
    end.

(** expression.c:1222-1259 *)
Definition resolve_postfix_expr (a : ast) (st : rst) : rres srt :=
  match ast_type a with
  | AST_SUBSC_EXPR => resolve_subscription_expr a st
  | AST_CALL_EXPR => resolve_call_expr a st
  | AST_MEMBER_EXPR | AST_TOMEMBER_EXPR => resolve_member_like_expr a st
  | AST_POSTINC_EXPR => resolve_incdec_expr SRT_POSTINC_EXPR a st
  | AST_POSTDEC_EXPR => resolve_incdec_expr SRT_POSTDEC_EXPR a st
  | _ => Fatal
  end.

(** expression.c:1594-1619 *)
Definition resolve_identifier_expr (a : ast) (st : rst) : rres srt :=
  do n <- ast_name a;
  match sym_search (r_syms st) n with
  | None => rerr st
  | Some y =>
      match sy_kind y with
      | SYMBOL_INT i => rok (new_iliteral_srt DTYPE_INT i) st
      | _ => rok (new_identifier_srt SRT_IDENT_EXPR (sy_dtype y) n) st
      end
  end.
(** expression.c:1621-1651 *)
Definition dtype_of_iltype (t : iltype) : dtype :=
  match t with
  | IInt => DTYPE_INT
  | IUInt => DTYPE_UNSIGNED_INT
  | ILong => DTYPE_LONG
  | IULong => DTYPE_UNSIGNED_LONG
  | ILongLong => DTYPE_LONGLONG
  | IULongLong => DTYPE_UNSIGNED_LONGLONG
  end.
Definition resolve_integer_expr (a : ast) (st : rst) : rres srt :=
  do i <- ast_iliteral a;
  rok (new_iliteral_srt (dtype_of_iltype (itype i)) i) st.
(** expression.c:1653-1661 *)
Definition resolve_character_expr (a : ast) (st : rst) : rres srt :=
  do i <- ast_iliteral a;
  rok (new_iliteral_srt DTYPE_INT i) st.
(** expression.c:1663-1684 *)
Definition resolve_string_expr (a : ast) (st : rst) : rres srt :=
  do s <- ast_sliteral a;
  let id := r_sid st + 1 in
  let d := DTYPE_ARRAY DTYPE_CHAR (Z.of_nat (length s)) in
  let decl := new_srt SRT_DECL_LIST [new_srt SRT_INIT_DECL
                [new_string_srt SRT_STR_DECL d id; new_srt SRT_INIT [new_sliteral_srt d s]]] in
  rok (new_string_srt SRT_STR_EXPR d id) (set_tu (r_tu st ++ [decl]) (set_sid id st)).
(** expression.c:1559-1592 *)
Definition resolve_primary_expr (a : ast) (st : rst) : rres srt :=
  match ast_type a with
  | AST_IDENT_EXPR => resolve_identifier_expr a st
  | AST_INT_EXPR => resolve_integer_expr a st
  | AST_CHAR_EXPR => resolve_character_expr a st
  | AST_STRING_EXPR => resolve_string_expr a st
  | _ => Fatal
  end.

(** expression.c:10-104 *)
Definition resolve_expr (a : ast) (st : rst) : rres srt :=
  match ast_type a with
  | AST_ASSIGN_EXPR => resolve_assignment_expr a st
  | AST_MUL_ASSIGN_EXPR | AST_DIV_ASSIGN_EXPR | AST_MOD_ASSIGN_EXPR | AST_ADD_ASSIGN_EXPR | AST_SUB_ASSIGN_EXPR
  | AST_LSHIFT_ASSIGN_EXPR | AST_RSHIFT_ASSIGN_EXPR | AST_OR_ASSIGN_EXPR | AST_XOR_ASSIGN_EXPR
  | AST_AND_ASSIGN_EXPR => resolve_compound_assignment_expr a st
  | AST_COND_EXPR => resolve_conditional_expr a st
  | AST_LOR_EXPR | AST_LAND_EXPR => resolve_logical_expr a st
  | AST_OR_EXPR | AST_XOR_EXPR | AST_AND_EXPR => resolve_bitwise_expr a st
  | AST_EQUAL_EXPR | AST_NEQUAL_EXPR => resolve_equality_expr a st
  | AST_LESS_EXPR | AST_GREATER_EXPR | AST_LESSEQ_EXPR | AST_GREATEREQ_EXPR => resolve_relational_expr a st
  | AST_LSHIFT_EXPR | AST_RSHIFT_EXPR => resolve_shift_expr a st
  | AST_ADD_EXPR | AST_SUB_EXPR => resolve_additive_expr a st
  | AST_MUL_EXPR | AST_DIV_EXPR | AST_MOD_EXPR => resolve_multiplicative_expr a st
  | AST_CAST_EXPR => resolve_cast_expr a st
  | AST_PREINC_EXPR | AST_PREDEC_EXPR | AST_ADDR_EXPR | AST_INDIR_EXPR | AST_POS_EXPR | AST_NEG_EXPR
  | AST_NOT_EXPR | AST_LNOT_EXPR | AST_SIZEOF_EXPR => resolve_unary_expr a st
  | AST_SUBSC_EXPR | AST_CALL_EXPR | AST_MEMBER_EXPR | AST_TOMEMBER_EXPR | AST_POSTINC_EXPR
  | AST_POSTDEC_EXPR => resolve_postfix_expr a st
  | AST_IDENT_EXPR | AST_INT_EXPR | AST_CHAR_EXPR | AST_STRING_EXPR => resolve_primary_expr a st
  | _ => Fatal
  end.

(** * declaration.c *)
(** declaration.c:87-91 resolve_specifier_qualifier_list is [k_specs]. declaration.c:48-85: every
    `typedef` is erased from the AST (seen again by no one); with one or more the dtype is a typedef. *)
Definition resolve_decl_specifiers (a : ast) (st : rst) : rres dtype :=
  let rest := filter (fun c => negb (ast_is c AST_STG_TYPEDEF)) (ast_children a) in
  let td := existsb (fun c => ast_is c AST_STG_TYPEDEF) (ast_children a) in
  rtry d, st <- k_specs k (Ast (ast_type a) (ast_payload a) rest) st;
  rok (if td then dtype_connect [LTypedef] d else d) st.

(** declaration.c:381-414 *)
Definition resolve_struct_declarator (spec : dtype) (a : ast) (st : rst) : rres (name * dtype) :=
  rtry (n, ls), st <- k_declor k spec [] a st;
  let d := dtype_connect ls spec in
  if dtype_isincomplete d then rerr st
  else if is_function d then rerr st
  else do n <- deref n; rok (n, d) st.
(** declaration.c:317-343 and 345-379 *)
Definition resolve_struct_decl (a : ast) (st : rst) : rres (list (name * dtype)) :=
  do specs <- child a 0;
  rtry spec, st <- k_specs k specs st;
  do l <- child a 1;
  rmap (resolve_struct_declarator spec) (ast_children l) st.
(** declaration.c:294-307: two members of the same name *)
Fixpoint has_dup (l : list name) : bool :=
  match l with
  | [] => false
  | n :: r => existsb (name_eqb n) r || has_dup r
  end.
(** declaration.c:256-315 *)
Definition resolve_struct_decl_list (a : ast) (st : rst) : rres (list (name * dtype)) :=
  rtry mss, st <- rmap resolve_struct_decl (ast_children a) st;
  let ms := concat mss in
  if has_dup (List.map fst ms) then rerr st else rok ms st.
(** declaration.c:193-254 *)
Definition resolve_struct_specifier (a : ast) (st : rst) : rres dtype :=
  do sn <- match nth_error (ast_children a) 0 with
           | Some c => if ast_is c AST_STRUCT_NAME then do n <- ast_name c; Ok (Some n) else Ok None
           | None => Ok None
           end;
  rtry members, st <- match nth_error (ast_children a) (match sn with Some _ => 1 | None => 0 end) with
                      | Some c => if ast_is c AST_STRUCT_DECL_LIST
                                  then rtry ms, st <- resolve_struct_decl_list c st; rok (Some ms) st
                                  else rok None st
                      | None => rok None st
                      end;
  match sn with
  | None =>
      do ms <- deref members;
      do d <- new_unnamed_struct ms;
      rok d st
  | Some n =>
      match members with
      | None =>
          match tag_search (r_tags st) n with
          | None => rok (DTYPE_NSTRUCT n 0 0) st
          | Some (DTYPE_USTRUCT _ nb al) => rok (DTYPE_NSTRUCT n nb al) st
          | Some _ => UB
          end
      | Some ms =>
          do b <- tag_can_define (r_tags st) n;
          if negb b then rerr st
          else
            do tags <- tag_define_struct (r_tags st) n ms;
            let st := set_tags tags st in
            do u <- deref (tag_search (r_tags st) n);
            match u with
            | DTYPE_USTRUCT _ nb al => rok (DTYPE_NSTRUCT n nb al) (push_scope (new_identifier_srt SRT_TAG_DECL u n) st)
            | _ => UB
            end
      end
  end.

(** declaration.c:509-566; default_enum_value is an int *)
Definition resolve_enumerator (a : ast) (st : rst) : rres (name * Z) :=
  do c <- child a 0;
  do n <- ast_name c;
  do b <- sym_can_define (r_syms st) n;
  if negb b then rerr st
  else if Nat.eqb (nchildren a) 1 then
    do syms <- sym_define_integer (r_syms st) n DTYPE_INT (new_signed IInt (r_enum st));
    let v := r_enum st in
    if v + 1 >? INT_MAX then UB
    else rok (n, v) (set_enum (v + 1) (set_syms syms st))
  else
    rtry s, st <- expr_at a 1 st;
    let s := decay s in
    if negb (srt_is s SRT_ILITERAL_EXPR) then rerr st
    else
      do i <- srt_iliteral s;
      if iliteral_isunsigned i then rerr st
      else
        let v := wraps 32 (sval i) in
        do syms <- sym_define_integer (r_syms st) n DTYPE_INT (new_signed IInt v);
        if v + 1 >? INT_MAX then UB
        else rok (n, v) (set_enum (v + 1) (set_syms syms st)).
(** declaration.c:471-507 *)
Definition resolve_enumerator_list (a : ast) (st : rst) : rres (list (name * Z)) :=
  do (o, st) <- rmap resolve_enumerator (ast_children a) (set_enum 0 st);
  Ok (o, set_enum 0 st).
(** declaration.c:416-469 *)
Definition resolve_enum_specifier (a : ast) (st : rst) : rres dtype :=
  do en <- match nth_error (ast_children a) 0 with
           | Some c => if ast_is c AST_ENUM_NAME then do n <- ast_name c; Ok (Some n) else Ok None
           | None => Ok None
           end;
  rtry members, st <- match nth_error (ast_children a) (match en with Some _ => 1 | None => 0 end) with
                      | Some c => if ast_is c AST_ENUMOR_LIST
                                  then rtry ms, st <- resolve_enumerator_list c st; rok (Some ms) st
                                  else rok None st
                      | None => rok None st
                      end;
  match en, members with
  | None, None => UB
  | None, Some _ => rok DTYPE_INT st
  | Some _, None => rok DTYPE_INT st
  | Some n, Some ms =>
      do b <- tag_can_define (r_tags st) n;
      if negb b then rerr st
      else do tags <- tag_define_enum (r_tags st) n ms; rok DTYPE_INT (set_tags tags st)
  end.

(** declaration.c:568-599 *)
Definition resolve_typedef_name_specifier (a : ast) (st : rst) : rres dtype :=
  do n <- ast_name a;
  do y <- deref (sym_search (r_syms st) n);
  match sy_dtype y with
  | DTYPE_TYPEDEF d =>
      if negb (dtype_isincomplete d) then rok d st
      else
        match d with
        | DTYPE_NSTRUCT sn _ _ =>
            match tag_search (r_tags st) sn with
            | None => rok d st
            | Some (DTYPE_USTRUCT _ nb al) | Some (DTYPE_NSTRUCT _ nb al) => rok (DTYPE_NSTRUCT sn nb al) st
            | Some _ => Fatal
            end
        | DTYPE_USTRUCT _ _ _ => UB
        | _ => Fatal
        end
  | _ => UB
  end.

(** declaration.c:116-184, on the sorted specifier numbers *)
Inductive speckind := SKBase (d : dtype) | SKStruct | SKEnum | SKTypedef | SKInvalid.
Definition spec_table : list (list asttype * speckind) := [
  ([AST_TYPE_VOID], SKBase DTYPE_VOID);
  ([AST_TYPE_CHAR], SKBase DTYPE_CHAR);
  ([AST_TYPE_INT], SKBase DTYPE_INT);
  ([AST_TYPE_LONG], SKBase DTYPE_LONG);
  ([AST_TYPE_INT; AST_TYPE_LONG], SKBase DTYPE_LONG);
  ([AST_TYPE_LONG; AST_TYPE_LONG], SKBase DTYPE_LONGLONG);
  ([AST_TYPE_INT; AST_TYPE_LONG; AST_TYPE_LONG], SKBase DTYPE_LONGLONG);
  ([AST_TYPE_UNSIGNED], SKBase DTYPE_UNSIGNED_INT);
  ([AST_TYPE_INT; AST_TYPE_UNSIGNED], SKBase DTYPE_UNSIGNED_INT);
  ([AST_TYPE_LONG; AST_TYPE_UNSIGNED], SKBase DTYPE_UNSIGNED_LONG);
  ([AST_TYPE_INT; AST_TYPE_LONG; AST_TYPE_UNSIGNED], SKBase DTYPE_UNSIGNED_LONG);
  ([AST_TYPE_LONG; AST_TYPE_LONG; AST_TYPE_UNSIGNED], SKBase DTYPE_UNSIGNED_LONGLONG);
  ([AST_TYPE_INT; AST_TYPE_LONG; AST_TYPE_LONG; AST_TYPE_UNSIGNED], SKBase DTYPE_UNSIGNED_LONGLONG);
  ([AST_TYPE_STRUCT], SKStruct);
  ([AST_TYPE_ENUM], SKEnum);
  ([AST_TYPEDEF_NAME], SKTypedef)
].
Fixpoint nums_eqb (l : list Z) (ts : list asttype) : bool :=
  match l, ts with
  | [], [] => true
  | x :: l', t :: ts' => (x =? asttype_num t) && nums_eqb l' ts'
  | _, _ => false
  end.
Fixpoint spec_lookup (l : list Z) (t : list (list asttype * speckind)) : speckind :=
  match t with
  | [] => SKInvalid
  | (ts, sk) :: r => if nums_eqb l ts then sk else spec_lookup l r
  end.
(** declaration.c:93-191 *)
Definition resolve_type_specifier_list (a : ast) (st : rst) : rres dtype :=
  let n := nchildren a in
  if (n <? 1)%nat || (4 <? n)%nat then rerr st
  else
    do l <- sort_ast_type (S n) (List.map (fun c => asttype_num (ast_type c)) (ast_children a)) 0 (Z.of_nat n - 1);
    match spec_lookup l spec_table with
    | SKBase d => rok d st
    | SKStruct => do c <- child a 0; resolve_struct_specifier c st
    | SKEnum => do c <- child a 0; resolve_enum_specifier c st
    | SKTypedef => do c <- child a 0; resolve_typedef_name_specifier c st
    | SKInvalid => rerr st
    end.

(** declaration.c:916-986 *)
Definition resolve_parameter_decl (a : ast) (st : rst) : rres (option name * dtype) :=
  do specs <- child a 0;
  rtry spec, st <- resolve_decl_specifiers specs st;
  if is_typedef spec then rerr st
  else
    do da <- child a 1;
    rtry (n, ls), st <- k_declor k spec [] da st;
    let d := dtype_connect ls spec in
    let d := match d with DTYPE_ARRAY e _ => DTYPE_POINTER e | _ => d end in
    let d := match d with DTYPE_FUNCTION _ _ => DTYPE_POINTER d | _ => d end in
    if dtype_isincomplete d then rerr st else rok (n, d) st.
Fixpoint some_names (l : list (option name * dtype)) : list name :=
  match l with
  | [] => []
  | (Some n, _) :: r => n :: some_names r
  | (None, _) :: r => some_names r
  end.
(** declaration.c:856-914 *)
Definition resolve_parameter_list (a : ast) (st : rst) : rres (list (option name * dtype)) :=
  do v <- ast_is_void_parameter_list a;
  if v then rok [] st
  else
    rtry ps, st <- rmap resolve_parameter_decl (ast_children a) st;
    if has_dup (some_names ps) then rerr st else rok ps st.

(** declaration.c:713-854, one turn of the loop; [socket] has the links read so far, the last one
    first. The result is the declared name and the links, outermost first. *)
Definition resolve_declarator (spec : dtype) (socket : list link) (a : ast) (st : rst) : rres (option name * list link) :=
  match ast_type a with
  | AST_PTR_DECLOR => do c <- child a 0; k_declor k spec (LPointer :: socket) c st
  | AST_ARRAY_DECLOR =>
      match socket with
      | LFunction _ :: _ => rerr st
      | _ =>
          rtry s, st <- expr_at a 1 st;
          let s := decay s in
          if negb (srt_is s SRT_ILITERAL_EXPR) then rerr st
          else
            do i <- srt_iliteral s;
            if iliteral_isunsigned i then rerr st
            else if sval i <=? 0 then rerr st
            else do c <- child a 0; k_declor k spec (LArray (wraps 32 (sval i)) :: socket) c st
      end
  | AST_FUNC_DECLOR =>
      match socket with
      | LArray _ :: _ | LFunction _ :: _ => rerr st
      | _ =>
          do pa <- child a 1;
          rtry ps, st <- resolve_parameter_list pa st;
          do c <- child a 0; k_declor k spec (LFunction ps :: socket) c st
      end
  | AST_IDENT_DECLOR | AST_ABS_DECLOR =>
      let plug := match spec with DTYPE_TYPEDEF d => d | _ => spec end in
      match socket with
      | LArray _ :: _ => if dtype_isincomplete plug then rerr st else
          do n <- (if ast_is a AST_IDENT_DECLOR then do n <- ast_name a; Ok (Some n) else Ok None);
          rok (n, rev socket) st
      | LFunction _ :: _ => if dtype_isincomplete plug && negb (is_void spec) then rerr st else
          do n <- (if ast_is a AST_IDENT_DECLOR then do n <- ast_name a; Ok (Some n) else Ok None);
          rok (n, rev socket) st
      | _ =>
          do n <- (if ast_is a AST_IDENT_DECLOR then do n <- ast_name a; Ok (Some n) else Ok None);
          rok (n, rev socket) st
      end
  | _ => Fatal
  end.

(** declaration.c:988-1019 *)
Definition resolve_type_name (a : ast) (st : rst) : rres dtype :=
  do specs <- child a 0;
  rtry spec, st <- k_specs k specs st;
  do da <- child a 1;
  rtry (_, ls), st <- k_declor k spec [] da st;
  rok (dtype_connect ls spec) st.

(** declaration.c:1285-1303: the first [n] elements of [d] from index [i] on *)
Fixpoint zero_list (tags : tagtab) (d : dtype) (i : Z) (n : nat) : res (list srt) :=
  match n with
  | O => Ok []
  | S m =>
      do o <- dtype_aggregate_at d i;
      do e <- deref o;
      do s <- k_zero k tags e;
      do r <- zero_list tags d (i + 1) m;
      Ok (s :: r)
  end.
(** declaration.c:1061-1095 and 1271-1283 *)
Definition resolve_zero_initializer (tags : tagtab) (d : dtype) : res srt :=
  match d with
  | DTYPE_CHAR | DTYPE_INT | DTYPE_POINTER _ =>
      let z := new_iliteral_srt DTYPE_INT (new_signed IInt 0) in
      Ok (new_srt SRT_INIT [if dtype_equals d DTYPE_INT then z else cast d z])
  | DTYPE_ARRAY _ _ | DTYPE_USTRUCT _ _ _ | DTYPE_NSTRUCT _ _ _ =>
      do d <- match d with DTYPE_NSTRUCT n _ _ => deref (tag_search tags n) | _ => Ok d end;
      do n <- dtype_aggregate_size d;
      do cs <- zero_list tags d 0 (Z.to_nat n);
      Ok (new_srt SRT_INIT cs)
  | _ => Fatal
  end.

(** declaration.c:1097-1149 *)
Definition resolve_scalar_initializer (d : dtype) (a : ast) (st : rst) : rres srt :=
  let st := set_off (r_off st + 1) st in
  if ast_is a AST_INIT_LIST && (1 <? nchildren a)%nat then rerr st
  else
    do e <- (if ast_is a AST_INIT_LIST then child a 0 else Ok a);
    if negb (ast_isexpr e) then rerr st
    else
      rtry s, st <- k_expr k e st;
      let s := decay s in
      do ds <- dty s;
      if negb (dtype_isassignable d ds) then rerr st
      else rok (new_srt SRT_INIT [if dtype_equals d ds then s else cast d s]) st.

(** declaration.c:1169-1207: results so far ([None] after an error), the next element index, state *)
Fixpoint aggregate_loop (d : dtype) (a : ast) (size : Z) (n : nat) (i : Z) (st : rst)
  : res (option (list srt) * Z * rst) :=
  match n with
  | O => Ok (Some [], i, st)
  | S m =>
      if (r_off st <? Z.of_nat (nchildren a)) && (i <? size) then
        let off := r_off st in
        do c <- (if off <? 0 then UB else child a (Z.to_nat off));
        do o <- dtype_aggregate_at d i;
        do e <- deref o;
        do (x, st) <- (if dtype_isaggregate e && negb (ast_is c AST_INIT_LIST)
                       then k_init k e true a st
                       else do (x, st) <- k_init k e false c (set_off 0 st); Ok (x, set_off (off + 1) st));
        do (xs, i', st) <- aggregate_loop d a size m (i + 1) st;
        Ok (match x, xs with Some b, Some bs => Some (b :: bs) | _, _ => None end, i', st)
      else Ok (Some [], i, st)
  end.
(** declaration.c:1151-1241; [od] is NULL when the tag of a named struct is not declared *)
Definition resolve_aggregate_initializer (od : option dtype) (nested : bool) (a : ast) (st : rst) : rres srt :=
  if negb (ast_is a AST_INIT_LIST) then rerr st
  else
    do d <- deref od;
    do size <- dtype_aggregate_size d;
    do (xs, i, st) <- aggregate_loop d a size (Z.to_nat size) 0 st;
    do zs <- zero_list (r_tags st) d i (Z.to_nat (size - i));
    if negb nested && (r_off st <? Z.of_nat (nchildren a)) then rerr st
    else
      match xs with
      | None => rerr st
      | Some xs => rok (new_srt SRT_INIT (xs ++ zs)) st
      end.
(** declaration.c:1243-1269 *)
Definition resolve_string_initializer (d : dtype) (size : Z) (nested : bool) (a : ast) (st : rst) : rres srt :=
  do l <- (if ast_is a AST_INIT_LIST && Nat.eqb (nchildren a) 1 then child a 0 else Ok a);
  if negb (ast_is l AST_STRING_EXPR) then resolve_aggregate_initializer (Some d) nested a st
  else
    do s <- ast_sliteral l;
    if Z.of_nat (length s) - 1 >? size then rerr st
    else rok (new_srt SRT_INIT [new_sliteral_srt d (zero_padding_copy s (Z.to_nat size))]) st.
(** declaration.c:1021-1059 *)
Definition resolve_initializer (d : dtype) (nested : bool) (a : ast) (st : rst) : rres srt :=
  if dtype_isscalar d then resolve_scalar_initializer d a st
  else
    match d with
    | DTYPE_ARRAY DTYPE_CHAR n => resolve_string_initializer d n nested a st
    | DTYPE_NSTRUCT n _ _ => resolve_aggregate_initializer (tag_search (r_tags st) n) nested a st
    | DTYPE_ARRAY _ _ | DTYPE_USTRUCT _ _ _ => resolve_aggregate_initializer (Some d) nested a st
    | DTYPE_FUNCTION _ _ | DTYPE_TYPEDEF _ => rerr st
    | _ => Fatal
    end.

(** declaration.c:637-711 *)
Definition resolve_init_declarator (spec : dtype) (a : ast) (st : rst) : rres srt :=
  do da <- child a 0;
  rtry (n, ls), st <- k_declor k spec [] da st;
  let d := match spec with
           | DTYPE_TYPEDEF d => dtype_connect [LTypedef] (dtype_connect ls d)
           | _ => dtype_connect ls spec
           end in
  do n <- deref n;
  do b <- sym_can_define (r_syms st) n;
  if negb b then rerr st
  else if dtype_isincomplete d then rerr st
  else
    do syms <- (if Nat.eqb (length (r_syms st)) 1 || negb (dtype_isobject d)
                then sym_define_label (r_syms st) n d
                else sym_define_memory (r_syms st) n d);
    let st := set_syms syms st in
    let decl := new_identifier_srt SRT_IDENT_DECL d n in
    if Nat.eqb (nchildren a) 1 then rok (new_srt SRT_INIT_DECL [decl]) st
    else
      do ia <- child a 1;
      do (x, st) <- k_init k d false ia (set_off 0 st);
      let st := set_off (-1) st in
      match x with
      | None => rerr st
      | Some i => rok (new_srt SRT_INIT_DECL [decl; i]) st
      end.
(** declaration.c:13-46 and 601-635 *)
Definition resolve_decl (a : ast) (st : rst) : rres srt :=
  do specs <- child a 0;
  rtry spec, st <- resolve_decl_specifiers specs st;
  if Nat.eqb (nchildren a) 1 then rok (new_srt SRT_DECL_LIST []) st
  else
    do l <- child a 1;
    rtry cs, st <- rmap (resolve_init_declarator spec) (ast_children l) st;
    rok (new_srt SRT_DECL_LIST cs) st.

(** * statement.c *)
(** statement.c:71-134 *)
Definition resolve_case_stmt (a : ast) (st : rst) : rres srt :=
  match r_cases st with
  | None => rerr st
  | Some _ =>
      rtry c, st <- expr_at a 0 st;
      if negb (srt_is c SRT_ILITERAL_EXPR) then rerr st
      else
        do i <- srt_iliteral c;
        if iliteral_isunsigned i then rerr st
        else
          let c := perform_integer_promotion c in
          do i <- srt_iliteral c;
          do cases <- deref (r_cases st);
          if existsb (Z.eqb (sval i)) cases then rerr st
          else
            let st := set_cases (Some (cases ++ [sval i])) st in
            do b <- child a 1;
            rtry s, st <- k_stmt k b st;
            rok (new_srt SRT_CASE_STMT [c; s]) st
  end.
(** statement.c:136-173 *)
Definition resolve_default_stmt (a : ast) (st : rst) : rres srt :=
  match r_cases st with
  | None => rerr st
  | Some _ =>
      if r_default st then rerr st
      else
        do b <- child a 0;
        rtry s, st <- k_stmt k b (set_default true st);
        rok (new_srt SRT_DEFAULT_STMT [s]) st
  end.
(** statement.c:188-207 *)
Definition resolve_block_item (a : ast) (st : rst) : rres unit :=
  rtry s, st <- (if ast_is a AST_DECL then resolve_decl a st else k_stmt k a st);
  rok tt (push_scope s st).
(** statement.c:175-217 *)
Definition resolve_compound_stmt (a : ast) (st : rst) : rres srt :=
  let outer := r_scope st in
  do (o, st) <- rmap resolve_block_item (ast_children a) (set_scope (Some []) st);
  do items <- deref (r_scope st);
  let st := set_scope outer st in
  match o with
  | None => rerr st
  | Some _ => rok (new_srt SRT_CMPD_STMT items) st
  end.
(** statement.c:219-267 *)
Definition resolve_return_stmt (a : ast) (st : rst) : rres srt :=
  let n := nchildren a in
  do ret <- deref (r_ret st);
  if is_void ret && (0 <? n)%nat then rerr st
  else if negb (is_void ret) && Nat.eqb n 0 then rerr st
  else if Nat.eqb n 0 then rok (new_srt SRT_RET_STMT []) st
  else
    rtry s, st <- expr_at a 0 st;
    let s := decay s in
    do d <- dty s;
    if negb (dtype_isassignable d ret) then rerr st
    else rok (new_srt SRT_RET_STMT [if dtype_equals d ret then s else cast ret s]) st.
(** statement.c:269-279 and 281-291 *)
Definition resolve_continue_stmt (st : rst) : rres srt :=
  if negb (r_loop st) then rerr st else rok (new_srt SRT_CONTINUE_STMT []) st.
Definition resolve_break_stmt (st : rst) : rres srt :=
  if negb (r_loop st) && match r_cases st with None => true | Some _ => false end then rerr st
  else rok (new_srt SRT_BREAK_STMT []) st.
(** statement.c:293-310 *)
Definition resolve_expression_stmt (a : ast) (st : rst) : rres srt :=
  rtry s, st <- expr_at a 0 st;
  rok (new_srt SRT_EXPR_STMT [decay s]) st.
(** statement.c:317-367 *)
Definition resolve_if_else_stmt (a : ast) (st : rst) : rres srt :=
  rtry c, st <- expr_at a 0 st;
  let c := decay c in
  do d <- dty c;
  if negb (dtype_isscalar d) then rerr st
  else
    do t <- child a 1;
    rtry s1, st <- k_stmt k t st;
    if Nat.eqb (nchildren a) 2 then rok (new_srt SRT_IF_STMT [c; s1]) st
    else
      do e <- child a 2;
      rtry s2, st <- k_stmt k e st;
      rok (new_srt SRT_IF_STMT [c; s1; s2]) st.
(** statement.c:369-418 *)
Definition resolve_switch_stmt (a : ast) (st : rst) : rres srt :=
  rtry c, st <- expr_at a 0 st;
  let c := perform_integer_promotion (decay c) in
  do d <- dty c;
  if negb (dtype_isinteger d) then rerr st
  else
    let cases := r_cases st in
    let def := r_default st in
    do b <- child a 1;
    do (o, st) <- k_stmt k b (set_default false (set_cases (Some []) st));
    let st := set_default def (set_cases cases st) in
    match o with
    | None => rerr st
    | Some s => rok (new_srt SRT_SWITCH_STMT [c; s]) st
    end.
(** statement.c:420-462 *)
Definition resolve_while_stmt (a : ast) (st : rst) : rres srt :=
  rtry c, st <- expr_at a 0 st;
  let c := decay c in
  do d <- dty c;
  if negb (dtype_isscalar d) then rerr st
  else
    let lp := r_loop st in
    do b <- child a 1;
    do (o, st) <- k_stmt k b (set_loop true st);
    let st := set_loop lp st in
    match o with
    | None => rerr st
    | Some s => rok (new_srt SRT_WHILE_STMT [c; s]) st
    end.
(** statement.c:486-501: some declared name of the list is a typedef *)
Fixpoint declares_typedef (l : list srt) : res bool :=
  match l with
  | [] => Ok false
  | x :: r =>
      do d <- deref (nth_error (srt_children x) 0);
      do t <- dty d;
      if is_typedef t then Ok true else declares_typedef r
  end.
(** statement.c:464-550 *)
Definition resolve_for_stmt (a : ast) (st : rst) : rres srt :=
  do ia <- child a 0;
  rtry i, st <- (if ast_is ia AST_DECL then resolve_decl ia st else k_stmt k ia st);
  do td <- (if ast_is ia AST_DECL then declares_typedef (srt_children i) else Ok false);
  if td then rerr st
  else
    do ca <- child a 1;
    rtry c, st <- k_stmt k ca st;
    do ok <- (if srt_is c SRT_EXPR_STMT
              then do e <- deref (nth_error (srt_children c) 0); do d <- dty e; Ok (dtype_isscalar d)
              else Ok true);
    if negb ok then rerr st
    else
      do ua <- child a 2;
      rtry u, st <- k_stmt k ua st;
      let lp := r_loop st in
      do ba <- child a 3;
      do (o, st) <- k_stmt k ba (set_loop true st);
      let st := set_loop lp st in
      match o with
      | None => rerr st
      | Some b => rok (new_srt SRT_FOR_STMT [i; c; u; b]) st
      end.

(** the scope of a block or for statement: statement.c:16-20 and 53-57 *)
Definition in_scope (f : rst -> rres srt) (st : rst) : rres srt :=
  do (o, st) <- f (set_tags (tag_enter (r_tags st)) (set_syms (sym_enter (r_syms st)) st));
  do tags <- tag_exit (r_tags st);
  do syms <- sym_exit (r_syms st);
  Ok (o, set_syms syms (set_tags tags st)).
(** statement.c:9-69 *)
Definition resolve_stmt (a : ast) (st : rst) : rres srt :=
  match ast_type a with
  | AST_CMPD_STMT => in_scope (resolve_compound_stmt a) st
  | AST_CASE_STMT => resolve_case_stmt a st
  | AST_DEFAULT_STMT => resolve_default_stmt a st
  | AST_CONTINUE_STMT => resolve_continue_stmt st
  | AST_BREAK_STMT => resolve_break_stmt st
  | AST_RET_STMT => resolve_return_stmt a st
  | AST_EXPR_STMT => resolve_expression_stmt a st
  | AST_NULL_STMT => rok (new_srt SRT_NULL_STMT []) st
  | AST_IF_STMT => resolve_if_else_stmt a st
  | AST_SWITCH_STMT => resolve_switch_stmt a st
  | AST_WHILE_STMT => resolve_while_stmt a st
  | AST_FOR_STMT => in_scope (resolve_for_stmt a) st
  | _ => Fatal
  end.

(** * external.c *)
(** external.c:137-142 *)
Fixpoint define_params (ps : list (option name * dtype)) (t : symtab) : res symtab :=
  match ps with
  | [] => Ok t
  | (n, d) :: r => do n <- deref n; do t <- sym_define_memory t n d; define_params r t
  end.
(** external.c:54-160 *)
Definition resolve_function_definition (a : ast) (st : rst) : rres srt :=
  do specs <- child a 0;
  rtry spec, st <- resolve_decl_specifiers specs st;
  if is_typedef spec then rerr st
  else
    do da <- child a 1;
    rtry (n, ls), st <- k_declor k spec [] da st;
    let d := dtype_connect ls spec in
    match d with
    | DTYPE_FUNCTION ps ret =>
        do n <- deref n;
        do b <- sym_can_define (r_syms st) n;
        if negb b then rerr st
        else if existsb (fun p => match fst p with None => true | Some _ => false end) ps then rerr st
        else
          do syms <- sym_define_label (r_syms st) n d;
          do syms <- sym_set_nbytes (sym_enter syms) 0;
          do syms <- define_params ps syms;
          let st := set_ret (Some ret) (set_tags (tag_enter (r_tags st)) (set_syms syms st)) in
          do ba <- child a 2;
          do (o, st) <- resolve_compound_stmt ba st;
          do tags <- tag_exit (r_tags st);
          do syms <- sym_set_nbytes (r_syms st) 0;
          do syms <- sym_exit syms;
          let st := set_syms syms (set_tags tags (set_ret None st)) in
          match o with
          | None => rerr st
          | Some body => rok (new_srt SRT_FUNC_DEF [new_identifier_srt SRT_IDENT_DECL d n; body]) st
          end
    | _ => rerr st
    end.
(** external.c:17-42 *)
Definition resolve_external (a : ast) (st : rst) : rres unit :=
  rtry s, st <- (if ast_is a AST_FUNC_DEF then resolve_function_definition a st else resolve_decl a st);
  rok tt (push_scope s st).
(** external.c:8-52 *)
Definition resolve_translation_unit (a : ast) (st : rst) : rres srt :=
  rtry _, st <- rmap resolve_external (ast_children a) st;
  rok (new_srt SRT_TRAS_UNIT (r_tu st)) st.

End Bodies.

(** No fuel left: nothing is known about the result. *)
Definition no_fuel : knot :=
  mkknot (fun _ _ => Fuel) (fun _ _ => Fuel) (fun _ _ => Fuel) (fun _ _ _ _ => Fuel) (fun _ _ _ _ => Fuel)
         (fun _ _ => Fuel) (fun _ _ => Fuel).
Fixpoint resolvers (fuel : nat) : knot :=
  match fuel with
  | O => no_fuel
  | S f =>
      let k := resolvers f in
      mkknot (resolve_expr k) (resolve_type_name k) (resolve_type_specifier_list k) (resolve_declarator k)
             (resolve_initializer k) (resolve_zero_initializer k) (resolve_stmt k)
  end.

Fixpoint ast_size (a : ast) : nat :=
  let 'Ast _ _ cs := a in S (list_sum (List.map ast_size cs)).
Definition resolve_fuel (a : ast) : nat := 64 + 4 * ast_size a.
(** resolver.c:27-29 resolver_resolve_semantics *)
Definition resolve (a : ast) : res srt :=
  do (o, _) <- resolve_translation_unit (resolvers (resolve_fuel a)) a new_resolver;
  match o with
  | Some s => Ok s
  | None => Err
  end.
