(** What C says about types: layout, equality, assignability, conversions and specifiers.  Independent
    of the functions of the compiler; only the representation of types ([dtype]) is shared. *)
From Coq Require Import Permutation.
From Verif Require Import Base AstModel DtypeModel.
Local Open Scope Z_scope.

(** * Sizes and alignments (System V ABI for x86-64, figure 3.1) *)
(** A named struct refers to a tag; the type carries the size and alignment of the tag's definition. *)
Fixpoint sizeof (d : dtype) : Z :=
  match d with
  | DTYPE_CHAR => 1
  | DTYPE_INT | DTYPE_UNSIGNED_INT | DTYPE_NENUM _ | DTYPE_UENUM _ => 4
  | DTYPE_LONG | DTYPE_UNSIGNED_LONG | DTYPE_LONGLONG | DTYPE_UNSIGNED_LONGLONG => 8
  | DTYPE_POINTER _ => 8
  | DTYPE_ARRAY e n => sizeof e * n
  | DTYPE_NSTRUCT _ size _ => size
  | DTYPE_USTRUCT _ size _ => size
  | DTYPE_VOID | DTYPE_FUNCTION _ _ | DTYPE_TYPEDEF _ => 0
  end.
Fixpoint alignof (d : dtype) : Z :=
  match d with
  | DTYPE_CHAR => 1
  | DTYPE_INT | DTYPE_UNSIGNED_INT | DTYPE_NENUM _ | DTYPE_UENUM _ => 4
  | DTYPE_LONG | DTYPE_UNSIGNED_LONG | DTYPE_LONGLONG | DTYPE_UNSIGNED_LONGLONG => 8
  | DTYPE_POINTER _ => 8
  | DTYPE_ARRAY e _ => alignof e
  | DTYPE_NSTRUCT _ _ align => align
  | DTYPE_USTRUCT _ _ align => align
  | DTYPE_VOID | DTYPE_FUNCTION _ _ | DTYPE_TYPEDEF _ => 0
  end.

Definition member_type (m : name * dtype * Z) : dtype := snd (fst m).
Definition member_offset (m : name * dtype * Z) : Z := snd m.
(** members [ms] in order, the first not before byte [from], the last ending at byte [until]; each is at the
    first multiple of its alignment after the one before it *)
Inductive placed : Z -> list (name * dtype * Z) -> Z -> Prop :=
| placed_nil from : placed from [] from
| placed_cons from n d off ms until :
    from <= off < from + alignof d -> (alignof d | off) ->
    placed (off + sizeof d) ms until ->
    placed from ((n, d, off) :: ms) until.
(** [align] is the largest alignment of the members *)
Definition largest_alignment (ms : list (name * dtype * Z)) (align : Z) : Prop :=
  (forall m, In m ms -> alignof (member_type m) <= align) /\
  (exists m, In m ms /\ alignof (member_type m) = align).
Record laid_out (ms : list (name * dtype * Z)) (size align : Z) : Prop := {
  lo_align : largest_alignment ms align;
  lo_size : exists until, placed 0 ms until /\ until <= size < until + align;
  lo_multiple : (align | size)
}.

(** complete object types, nested to any depth *)
Inductive complete : dtype -> Prop :=
| complete_char : complete DTYPE_CHAR
| complete_int : complete DTYPE_INT
| complete_uint : complete DTYPE_UNSIGNED_INT
| complete_long : complete DTYPE_LONG
| complete_ulong : complete DTYPE_UNSIGNED_LONG
| complete_longlong : complete DTYPE_LONGLONG
| complete_ulonglong : complete DTYPE_UNSIGNED_LONGLONG
| complete_nenum n : complete (DTYPE_NENUM n)
| complete_uenum ms : complete (DTYPE_UENUM ms)
| complete_pointer d : complete (DTYPE_POINTER d)
| complete_array d n : complete d -> 0 < n -> complete (DTYPE_ARRAY d n)
| complete_nstruct n size align : 0 < align -> 0 < size -> (align | size) -> complete (DTYPE_NSTRUCT n size align)
| complete_ustruct ms size align : Forall (fun m => complete (member_type m)) ms -> laid_out ms size align ->
    complete (DTYPE_USTRUCT ms size align).

(** The bytes a member occupies in its struct do not meet those of another *)
Definition disjoint (a : Z) (n : Z) (b : Z) (m : Z) : Prop := a + n <= b \/ b + m <= a.

(** * Type equality: the same type, up to the names of parameters and the layout figures of structs *)
Fixpoint shape (d : dtype) : dtype :=
  match d with
  | DTYPE_POINTER t => DTYPE_POINTER (shape t)
  | DTYPE_ARRAY t n => DTYPE_ARRAY (shape t) n
  | DTYPE_NSTRUCT n _ _ => DTYPE_NSTRUCT n 0 0
  | DTYPE_USTRUCT ms _ _ => DTYPE_USTRUCT (List.map (fun m => let '(n, t, _) := m in (n, shape t, 0)) ms) 0 0
  | DTYPE_FUNCTION ps r => DTYPE_FUNCTION (List.map (fun p => let '(_, t) := p in (None, shape t)) ps) (shape r)
  | DTYPE_TYPEDEF t => DTYPE_TYPEDEF (shape t)
  | _ => d
  end.
Definition same_type (a b : dtype) : Prop := shape a = shape b.

(** every mention of a struct tag inside [d] carries the size and alignment [tags] gives it, every
    unnamed struct has its C layout *)
Inductive coherent (tags : name -> Z * Z) : dtype -> Prop :=
| coherent_scalar d : match d with
    | DTYPE_POINTER _ | DTYPE_ARRAY _ _ | DTYPE_NSTRUCT _ _ _ | DTYPE_USTRUCT _ _ _ | DTYPE_FUNCTION _ _ | DTYPE_TYPEDEF _ => False
    | _ => True end -> coherent tags d
| coherent_pointer d : coherent tags (DTYPE_POINTER d)
| coherent_array d n : coherent tags d -> coherent tags (DTYPE_ARRAY d n)
| coherent_nstruct n : coherent tags (DTYPE_NSTRUCT n (fst (tags n)) (snd (tags n)))
| coherent_ustruct ms size align : Forall (fun m => coherent tags (member_type m)) ms -> laid_out ms size align ->
    coherent tags (DTYPE_USTRUCT ms size align)
| coherent_function ps r : coherent tags (DTYPE_FUNCTION ps r)
| coherent_typedef d : coherent tags (DTYPE_TYPEDEF d).

(** * Assignment (C11 6.5.16.1, for the supported types) *)
Definition arithmetic (d : dtype) : Prop :=
  In d [DTYPE_CHAR; DTYPE_INT; DTYPE_UNSIGNED_INT; DTYPE_LONG; DTYPE_UNSIGNED_LONG; DTYPE_LONGLONG; DTYPE_UNSIGNED_LONGLONG]
  \/ (exists n, d = DTYPE_NENUM n) \/ (exists ms, d = DTYPE_UENUM ms).
Definition pointers_assignable (d o : dtype) : Prop :=
  exists a b, d = DTYPE_POINTER a /\ o = DTYPE_POINTER b /\ (same_type a b \/ a = DTYPE_VOID \/ b = DTYPE_VOID).
Definition structure (d : dtype) : Prop :=
  match d with DTYPE_NSTRUCT _ _ _ | DTYPE_USTRUCT _ _ _ => True | _ => False end.
Definition assignable (d o : dtype) : Prop :=
  (arithmetic d /\ arithmetic o) \/ pointers_assignable d o \/ (structure d /\ structure o /\ same_type d o).

(** * Usual arithmetic conversions (C11 6.3.1.8), from ranks, widths and signedness *)
Inductive rank := RInt | RLong | RLongLong.
Definition rank_le (a b : rank) : bool :=
  match a, b with
  | RInt, _ | RLong, RLong | RLong, RLongLong | RLongLong, RLongLong => true
  | _, _ => false
  end.
Definition width (r : rank) : Z := match r with RInt => 32 | RLong => 64 | RLongLong => 64 end.
Definition integer_type (r : rank) (unsigned : bool) : dtype :=
  match r, unsigned with
  | RInt, false => DTYPE_INT
  | RInt, true => DTYPE_UNSIGNED_INT
  | RLong, false => DTYPE_LONG
  | RLong, true => DTYPE_UNSIGNED_LONG
  | RLongLong, false => DTYPE_LONGLONG
  | RLongLong, true => DTYPE_UNSIGNED_LONGLONG
  end.
(** 6.3.1.1: a type smaller than int is promoted to int *)
Inductive promotes : dtype -> rank -> bool -> Prop :=
| promotes_char : promotes DTYPE_CHAR RInt false
| promotes_integer r u : promotes (integer_type r u) r u.
Definition greater_rank (a b : rank) : rank := if rank_le a b then b else a.
Definition common_type (r1 : rank) (u1 : bool) (r2 : rank) (u2 : bool) : dtype :=
  if Bool.eqb u1 u2 then integer_type (greater_rank r1 r2) u1
  else
    let ru := if u1 then r1 else r2 in  (* the unsigned operand *)
    let rs := if u1 then r2 else r1 in  (* the signed operand *)
    if rank_le rs ru then integer_type ru true
    else if width ru <? width rs then integer_type rs false
    else integer_type rs true.

(** * Type specifiers (C11 6.7.2p2, the supported ones) *)
Definition specifier_sets : list (list asttype * dtype) := [
  ([AST_TYPE_VOID], DTYPE_VOID);
  ([AST_TYPE_CHAR], DTYPE_CHAR);
  ([AST_TYPE_INT], DTYPE_INT);
  ([AST_TYPE_UNSIGNED], DTYPE_UNSIGNED_INT);
  ([AST_TYPE_UNSIGNED; AST_TYPE_INT], DTYPE_UNSIGNED_INT);
  ([AST_TYPE_LONG], DTYPE_LONG);
  ([AST_TYPE_LONG; AST_TYPE_INT], DTYPE_LONG);
  ([AST_TYPE_UNSIGNED; AST_TYPE_LONG], DTYPE_UNSIGNED_LONG);
  ([AST_TYPE_UNSIGNED; AST_TYPE_LONG; AST_TYPE_INT], DTYPE_UNSIGNED_LONG);
  ([AST_TYPE_LONG; AST_TYPE_LONG], DTYPE_LONGLONG);
  ([AST_TYPE_LONG; AST_TYPE_LONG; AST_TYPE_INT], DTYPE_LONGLONG);
  ([AST_TYPE_UNSIGNED; AST_TYPE_LONG; AST_TYPE_LONG], DTYPE_UNSIGNED_LONGLONG);
  ([AST_TYPE_UNSIGNED; AST_TYPE_LONG; AST_TYPE_LONG; AST_TYPE_INT], DTYPE_UNSIGNED_LONGLONG)
].
(** [l] is a spelling of type [d] *)
Definition spells (l : list asttype) (d : dtype) : Prop :=
  exists s, In (s, d) specifier_sets /\ Permutation l s.
(** the specifiers that are one keyword *)
Definition keyword (t : asttype) : Prop :=
  In t [AST_TYPE_VOID; AST_TYPE_CHAR; AST_TYPE_INT; AST_TYPE_LONG; AST_TYPE_UNSIGNED].
(** the others: struct and enum specifiers, typedef names, which must stand alone *)
Definition alone (t : asttype) : Prop := In t [AST_TYPE_STRUCT; AST_TYPE_ENUM; AST_TYPEDEF_NAME].
