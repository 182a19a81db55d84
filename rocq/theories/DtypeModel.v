(** Model of src/dtype: C types of the compiled program.

    Sizes and offsets are C ints in the compiler and unbounded integers here: the model describes
    the code for types smaller than 2^31 bytes. *)
From Verif Require Export AstModel.
Open Scope Z_scope.

(** dtype/dtype.h:16-41 DType with dtype/{pointer,array,struct,enum,function,typedef}.h. A struct or
    enum dtype is either named (a reference to a tag, whose member vector is NULL) or unnamed (with a
    member vector); the model has a constructor for each. A struct member is (name, dtype,
    memory_offset), an enum member (name, value), a parameter (optional name, dtype). *)
Inductive dtype :=
| DTYPE_VOID
| DTYPE_CHAR
| DTYPE_INT
| DTYPE_UNSIGNED_INT
| DTYPE_LONG
| DTYPE_UNSIGNED_LONG
| DTYPE_LONGLONG
| DTYPE_UNSIGNED_LONGLONG
| DTYPE_POINTER (to_dtype : dtype)
| DTYPE_ARRAY (of_dtype : dtype) (size : Z)
| DTYPE_NSTRUCT (n : name) (nbytes alignment : Z)
| DTYPE_USTRUCT (members : list (name * dtype * Z)) (nbytes alignment : Z)
| DTYPE_NENUM (n : name)
| DTYPE_UENUM (members : list (name * Z))
| DTYPE_FUNCTION (params : list (option name * dtype)) (return_dtype : dtype)
| DTYPE_TYPEDEF (defined_dtype : dtype).

(** dtype->type comparisons *)
Definition is_void (d : dtype) : bool := match d with DTYPE_VOID => true | _ => false end.
Definition is_char (d : dtype) : bool := match d with DTYPE_CHAR => true | _ => false end.
Definition is_pointer (d : dtype) : bool := match d with DTYPE_POINTER _ => true | _ => false end.
Definition is_array (d : dtype) : bool := match d with DTYPE_ARRAY _ _ => true | _ => false end.
Definition is_struct (d : dtype) : bool := match d with DTYPE_NSTRUCT _ _ _ | DTYPE_USTRUCT _ _ _ => true | _ => false end.
Definition is_function (d : dtype) : bool := match d with DTYPE_FUNCTION _ _ => true | _ => false end.
Definition is_typedef (d : dtype) : bool := match d with DTYPE_TYPEDEF _ => true | _ => false end.

(** A declarator is read as a chain of pointer, array, function and typedef dtypes whose last one
    has a NULL successor (new_socket_*_dtype, dtype.c:74-97). The model keeps such a chain as the
    list of its links, outermost first. *)
Inductive link :=
| LPointer
| LArray (size : Z)
| LFunction (params : list (option name * dtype))
| LTypedef.
(** dtype.c:141-189 dtype_connect(socket, plug): the plug goes where the chain ends. *)
Fixpoint dtype_connect (socket : list link) (plug : dtype) : dtype :=
  match socket with
  | [] => plug
  | LPointer :: r => DTYPE_POINTER (dtype_connect r plug)
  | LArray n :: r => DTYPE_ARRAY (dtype_connect r plug) n
  | LFunction ps :: r => DTYPE_FUNCTION ps (dtype_connect r plug)
  | LTypedef :: r => DTYPE_TYPEDEF (dtype_connect r plug)
  end.

(** dtype.c:191-210 *)
Definition dtype_scalar_rank (d : dtype) : Z :=
  match d with
  | DTYPE_CHAR => 1
  | DTYPE_INT | DTYPE_UNSIGNED_INT => 2
  | DTYPE_LONG | DTYPE_UNSIGNED_LONG => 3
  | DTYPE_LONGLONG | DTYPE_UNSIGNED_LONGLONG => 4
  | DTYPE_POINTER _ => 3
  | _ => 0
  end.

(** dtype.c:212-221 dtype_aggregate_at, array.c:39-44, struct.c:65-71; the result of an out-of-range
    index is NULL; a named struct has no member vector *)
Definition dtype_aggregate_at (d : dtype) (i : Z) : res (option dtype) :=
  match d with
  | DTYPE_ARRAY e n => Ok (if (i <? 0) || (i >=? n) then None else Some e)
  | DTYPE_USTRUCT ms _ _ => Ok (if i <? 0 then None else option_map (fun m => snd (fst m)) (nth_error ms (Z.to_nat i)))
  | DTYPE_NSTRUCT _ _ _ => UB
  | _ => Ok None
  end.
(** dtype.c:223-232 dtype_aggregate_size *)
Definition dtype_aggregate_size (d : dtype) : res Z :=
  match d with
  | DTYPE_ARRAY _ n => Ok n
  | DTYPE_USTRUCT ms _ _ => Ok (Z.of_nat (length ms))
  | DTYPE_NSTRUCT _ _ _ => UB
  | _ => Ok 0
  end.

(** dtype.c:234-255 dtype_equals, pointer.c:37-39, array.c:50-52, struct.c:77-99 and 127-129,
    enum.c:42-66 and 92-94, function.c:45-62 and 96-98, typedef.c:34-36 *)
Fixpoint dtype_equals (a b : dtype) {struct a} : bool :=
  match a, b with
  | DTYPE_VOID, DTYPE_VOID | DTYPE_CHAR, DTYPE_CHAR | DTYPE_INT, DTYPE_INT
  | DTYPE_UNSIGNED_INT, DTYPE_UNSIGNED_INT | DTYPE_LONG, DTYPE_LONG
  | DTYPE_UNSIGNED_LONG, DTYPE_UNSIGNED_LONG | DTYPE_LONGLONG, DTYPE_LONGLONG
  | DTYPE_UNSIGNED_LONGLONG, DTYPE_UNSIGNED_LONGLONG => true
  | DTYPE_POINTER a1, DTYPE_POINTER b1 => dtype_equals a1 b1
  | DTYPE_ARRAY a1 n, DTYPE_ARRAY b1 m => (n =? m) && dtype_equals a1 b1
  | DTYPE_NSTRUCT n _ _, DTYPE_NSTRUCT m _ _ => name_eqb n m
  | DTYPE_USTRUCT ms _ _, DTYPE_USTRUCT ns _ _ =>
      (fix go (l1 l2 : list (name * dtype * Z)) : bool :=
         match l1, l2 with
         | [], [] => true
         | (n1, d1, _) :: r1, (n2, d2, _) :: r2 => name_eqb n1 n2 && dtype_equals d1 d2 && go r1 r2
         | _, _ => false
         end) ms ns
  | DTYPE_NENUM n, DTYPE_NENUM m => name_eqb n m
  | DTYPE_UENUM ms, DTYPE_UENUM ns =>
      (fix go (l1 l2 : list (name * Z)) : bool :=
         match l1, l2 with
         | [], [] => true
         | (n1, v1) :: r1, (n2, v2) :: r2 => name_eqb n1 n2 && (v1 =? v2) && go r1 r2
         | _, _ => false
         end) ms ns
  | DTYPE_FUNCTION ps r, DTYPE_FUNCTION qs s =>
      dtype_equals r s &&
      (fix go (l1 l2 : list (option name * dtype)) : bool :=
         match l1, l2 with
         | [], [] => true
         | (_, d1) :: r1, (_, d2) :: r2 => dtype_equals d1 d2 && go r1 r2
         | _, _ => false
         end) ps qs
  | DTYPE_TYPEDEF a1, DTYPE_TYPEDEF b1 => dtype_equals a1 b1
  | _, _ => false
  end.
(** dtype.c:257-264 *)
Definition dtype_iscompatible (a b : dtype) : bool := dtype_equals a b.

(** dtype.c:285-305 *)
Definition dtype_issignedinteger (d : dtype) : bool :=
  match d with
  | DTYPE_CHAR | DTYPE_INT | DTYPE_LONG | DTYPE_LONGLONG | DTYPE_NENUM _ | DTYPE_UENUM _ => true
  | _ => false
  end.
Definition dtype_isunsignedinteger (d : dtype) : bool :=
  match d with DTYPE_UNSIGNED_INT | DTYPE_UNSIGNED_LONG | DTYPE_UNSIGNED_LONGLONG => true | _ => false end.
Definition dtype_isinteger (d : dtype) : bool :=
  match d with
  | DTYPE_CHAR | DTYPE_INT | DTYPE_UNSIGNED_INT | DTYPE_LONG | DTYPE_UNSIGNED_LONG
  | DTYPE_LONGLONG | DTYPE_UNSIGNED_LONGLONG | DTYPE_NENUM _ | DTYPE_UENUM _ => true
  | _ => false
  end.
Definition dtype_isarithmetic (d : dtype) : bool :=
  match d with
  | DTYPE_CHAR | DTYPE_INT | DTYPE_UNSIGNED_INT | DTYPE_LONG | DTYPE_UNSIGNED_LONG
  | DTYPE_LONGLONG | DTYPE_UNSIGNED_LONGLONG | DTYPE_NENUM _ | DTYPE_UENUM _ => true
  | _ => false
  end.
Definition dtype_isscalar (d : dtype) : bool :=
  match d with
  | DTYPE_CHAR | DTYPE_INT | DTYPE_UNSIGNED_INT | DTYPE_LONG | DTYPE_UNSIGNED_LONG
  | DTYPE_LONGLONG | DTYPE_UNSIGNED_LONGLONG | DTYPE_POINTER _ | DTYPE_NENUM _ | DTYPE_UENUM _ => true
  | _ => false
  end.
(** dtype.c:307-318 *)
Definition dtype_isaggregate (d : dtype) : bool :=
  match d with DTYPE_ARRAY _ _ | DTYPE_NSTRUCT _ _ _ | DTYPE_USTRUCT _ _ _ => true | _ => false end.
Definition dtype_isobject (d : dtype) : bool :=
  match d with
  | DTYPE_CHAR | DTYPE_INT | DTYPE_UNSIGNED_INT | DTYPE_LONG | DTYPE_UNSIGNED_LONG
  | DTYPE_LONGLONG | DTYPE_UNSIGNED_LONGLONG | DTYPE_POINTER _ | DTYPE_ARRAY _ _
  | DTYPE_NENUM _ | DTYPE_UENUM _ => true
  | DTYPE_NSTRUCT _ nb _ | DTYPE_USTRUCT _ nb _ => nb >? 0
  | _ => false
  end.
Definition dtype_isincomplete (d : dtype) : bool :=
  match d with
  | DTYPE_VOID => true
  | DTYPE_NSTRUCT _ nb _ | DTYPE_USTRUCT _ nb _ => nb <=? 0
  | _ => false
  end.

(** dtype.c:266-283 *)
Definition dtype_isassignable (d o : dtype) : bool :=
  (dtype_isarithmetic d && dtype_isarithmetic o) ||
  match d, o with
  | DTYPE_POINTER a, DTYPE_POINTER b => dtype_iscompatible a b || is_void a || is_void b
  | _, _ => false
  end.

(** dtype.c:320-344 *)
Fixpoint dtype_alignment (d : dtype) : Z :=
  match d with
  | DTYPE_CHAR => 1
  | DTYPE_INT | DTYPE_UNSIGNED_INT => 4
  | DTYPE_LONG | DTYPE_UNSIGNED_LONG => 8
  | DTYPE_LONGLONG | DTYPE_UNSIGNED_LONGLONG => 8
  | DTYPE_POINTER _ => 8
  | DTYPE_ARRAY e _ => dtype_alignment e
  | DTYPE_NSTRUCT _ _ al | DTYPE_USTRUCT _ _ al => al
  | DTYPE_NENUM _ | DTYPE_UENUM _ => 4
  | _ => 0
  end.
(** dtype.c:346-370 *)
Fixpoint dtype_nbytes (d : dtype) : Z :=
  match d with
  | DTYPE_CHAR => 1
  | DTYPE_INT | DTYPE_UNSIGNED_INT => 4
  | DTYPE_LONG | DTYPE_UNSIGNED_LONG => 8
  | DTYPE_LONGLONG | DTYPE_UNSIGNED_LONGLONG => 8
  | DTYPE_POINTER _ => 8
  | DTYPE_ARRAY e n => n * dtype_nbytes e
  | DTYPE_NSTRUCT _ nb _ | DTYPE_USTRUCT _ nb _ => nb
  | DTYPE_NENUM _ | DTYPE_UENUM _ => 4
  | _ => 0
  end.

(** common/util.c:3-5 min_multiple_of: C integer division; a zero base is undefined *)
Definition min_multiple_of (n base : Z) : res Z :=
  if base =? 0 then UB else Ok (Z.quot (n + base - 1) base * base).

(** struct.c:26-48 new_unnamed_dstruct: memory offsets, size and alignment of a struct *)
Fixpoint layout_members (ms : list (name * dtype)) (nbytes align : Z) : res (list (name * dtype * Z) * Z * Z) :=
  match ms with
  | [] => Ok ([], nbytes, align)
  | (n, d) :: r =>
      let al := dtype_alignment d in
      do off <- min_multiple_of nbytes al;
      do (rest, nb, al') <- layout_members r (off + dtype_nbytes d) (if al >? align then al else align);
      Ok ((n, d, off) :: rest, nb, al')
  end.
Definition new_unnamed_struct (ms : list (name * dtype)) : res dtype :=
  do (members, nb, al) <- layout_members ms 0 0;
  do nb' <- min_multiple_of nb al;
  Ok (DTYPE_USTRUCT members nb' al).
