(** C16-C20: types.  TypeSpec has the C rules: sizes and alignments, layout, same_type, assignable, the usual arithmetic
    conversions and the type specifiers. *)
From Coq Require Import Permutation.
From Verif Require Import Base AstModel DtypeModel SrtModel ResolverModel TypeSpec TypeProofs TypeProofs2 TypeWitness.
Local Open Scope Z_scope.

(** C16: any list of members of complete types is laid out as in C, and the result is a complete type again.  [laid_out]
    is spelled out by C16_layout_meaning and determines the layout (C16_layout_unique).  Sizes are unbounded integers here. *)
Theorem C16_layout_partial : forall ms,
  ms <> [] -> Forall (fun m => complete (snd m)) ms ->
  exists members size align, new_unnamed_struct ms = Ok (DTYPE_USTRUCT members size align)
    /\ List.map fst members = ms /\ laid_out members size align /\ complete (DTYPE_USTRUCT members size align).
Proof. exact struct_layout. Qed.
Print Assumptions C16_layout_partial.
Example C16_case : exists members, new_unnamed_struct [(bytes "a", DTYPE_CHAR); (bytes "b", DTYPE_LONG); (bytes "c", DTYPE_ARRAY DTYPE_INT 3)]
  = Ok (DTYPE_USTRUCT members 32 8) /\ List.map member_offset members = [0; 8; 16].
Proof. eexists. split; [vm_compute; reflexivity |]. vm_compute. reflexivity. Qed.

(** Members in order, aligned, apart, inside the struct *)
Theorem C16_layout_meaning : forall ms size align,
  Forall (fun m => complete (member_type m)) ms -> laid_out ms size align ->
  (forall m, In m ms -> 0 <= member_offset m /\ member_offset m + sizeof (member_type m) <= size
                        /\ (alignof (member_type m) | member_offset m) /\ (align | size) /\ alignof (member_type m) <= align)
  /\ (forall i j m1 m2, (i < j)%nat -> nth_error ms i = Some m1 -> nth_error ms j = Some m2 ->
        member_offset m1 + sizeof (member_type m1) <= member_offset m2).
Proof. exact layout_meaning. Qed.
Print Assumptions C16_layout_meaning.

Theorem C16_layout_unique : forall ms1 size1 align1 ms2 size2 align2,
  laid_out ms1 size1 align1 -> laid_out ms2 size2 align2 ->
  List.map fst ms1 = List.map fst ms2 -> ms1 = ms2 /\ size1 = size2 /\ align1 = align2.
Proof. exact layout_unique. Qed.
Print Assumptions C16_layout_unique.

(** the sizes and alignments the compiler uses are those of the ABI *)
Theorem C16_sizes : forall d,
  dtype_nbytes d = sizeof d.
Proof. exact nbytes_sizeof. Qed.
Print Assumptions C16_sizes.

Theorem C16_alignments : forall d,
  dtype_alignment d = alignof d.
Proof. exact alignment_alignof. Qed.
Print Assumptions C16_alignments.

Theorem C16_complete : forall d,
  complete d -> 0 < alignof d /\ 0 < sizeof d /\ (alignof d | sizeof d).
Proof. exact complete_layout. Qed.
Print Assumptions C16_complete.

(** An array of functions is accepted as a member; computing the layout divides by zero *)
Theorem C16_zero_alignment_refuted : exists src ms, front src = UB /\ new_unnamed_struct ms = UB
  /\ ms = [(bytes "a", DTYPE_ARRAY (DTYPE_FUNCTION [] DTYPE_INT) 2)].
Proof. exact function_array_witness. Qed.
Print Assumptions C16_zero_alignment_refuted.

(** C17: two types compare equal exactly if they are the same up to parameter names and struct layout figures *)
Theorem C17_same_type : forall a b, dtype_equals a b = true <-> same_type a b.
Proof. exact equals_shape. Qed.
Print Assumptions C17_same_type.

Theorem C17_reflexive : forall a,
  dtype_equals a a = true.
Proof. exact equals_refl. Qed.
Print Assumptions C17_reflexive.

Theorem C17_symmetric : forall a b,
  dtype_equals a b = dtype_equals b a.
Proof. exact equals_sym. Qed.
Print Assumptions C17_symmetric.

Theorem C17_transitive : forall a b c,
  dtype_equals a b = true -> dtype_equals b c = true -> dtype_equals a c = true.
Proof. exact equals_trans. Qed.
Print Assumptions C17_transitive.

(** Equal types have the same size and alignment as long as a struct tag means the same struct in both *)
Theorem C17_layout_partial : forall tags a b,
  coherent tags a -> coherent tags b -> dtype_equals a b = true ->
  dtype_nbytes a = dtype_nbytes b /\ dtype_alignment a = dtype_alignment b.
Proof. exact equal_types_layout. Qed.
Print Assumptions C17_layout_partial.
Example C17_case : let tags := fun _ => (8, 4) in
  let s := fun o => DTYPE_USTRUCT [(bytes "x", DTYPE_CHAR, 0); (bytes "y", DTYPE_NSTRUCT (bytes "S") 8 4, o)] 12 4 in
  coherent tags (DTYPE_ARRAY (s 4) 3) /\ dtype_equals (DTYPE_ARRAY (s 4) 3) (DTYPE_ARRAY (s 4) 3) = true.
Proof.
  split; [| vm_compute; reflexivity]. apply coherent_array, coherent_ustruct.
  - constructor; [apply coherent_scalar; exact I |]. constructor; [exact (coherent_nstruct (fun _ => (8, 4)) (bytes "S")) | constructor].
  - split.
    + split; [intros m [<- | [<- | []]]; cbn; lia |]. exists (bytes "y", DTYPE_NSTRUCT (bytes "S") 8 4, 4). cbn. auto.
    + exists 12. split; [| lia]. constructor; [cbn; lia | now exists 0 |]. constructor; [cbn; lia | now exists 1 |]. constructor.
    + now exists 3.
Qed.

Theorem C17_members : forall ms1 s1 a1 ms2 s2 a2,
  dtype_equals (DTYPE_USTRUCT ms1 s1 a1) (DTYPE_USTRUCT ms2 s2 a2) = true ->
  Forall2 (fun m1 m2 => fst (fst m1) = fst (fst m2) /\ same_type (member_type m1) (member_type m2)) ms1 ms2.
Proof. exact equal_structs_members. Qed.
Print Assumptions C17_members.

(** Struct types are equal if their tags have the same name, even if these are different structs of different scopes *)
Theorem C17_tags_refuted : exists a b, dtype_equals a b = true /\ dtype_nbytes a <> dtype_nbytes b
  /\ complete a /\ complete b.
Proof. exact equal_tags_witness. Qed.
Print Assumptions C17_tags_refuted.

(** so a pointer to one is accepted for a pointer to the other *)
Theorem C17_tags_program_refuted : exists s, front tag_source = Ok s.
Proof. exact equal_tags_program. Qed.
Print Assumptions C17_tags_program_refuted.

(** C18: exactly the C rule, unless both are structures *)
Theorem C18_assignable_partial : forall d o,
  ~ (structure d /\ structure o) -> (dtype_isassignable d o = true <-> assignable d o).
Proof. exact assignable_spec. Qed.
Print Assumptions C18_assignable_partial.
Example C18_case : ~ (structure (DTYPE_POINTER DTYPE_VOID) /\ structure (DTYPE_POINTER DTYPE_INT)).
Proof. intros (H & _). exact H. Qed.

(** structures are never assignable *)
Theorem C18_struct_rejected : forall d o,
  structure d \/ structure o -> dtype_isassignable d o = false.
Proof. exact assignable_struct. Qed.
Print Assumptions C18_struct_rejected.

Theorem C18_struct_refuted : exists d, complete d /\ assignable d d /\ dtype_isassignable d d = false /\ front struct_assignment_source = Err.
Proof. exact struct_assignment_witness. Qed.
Print Assumptions C18_struct_refuted.

(** C19: both operands get the common type of C11 6.3.1.8.  The resolver gives enumerations the type int, so that the types below
    are all the arithmetic types of expressions. *)
Theorem C19_usual_conversions : forall l r dl dr r1 u1 r2 u2,
  srt_dtype l = Some dl -> srt_dtype r = Some dr -> promotes dl r1 u1 -> promotes dr r2 u2 ->
  let c := common_type r1 u1 r2 u2 in
  let '(l', r') := perform_usual_arithmetic_conversion l r in
  srt_dtype l' = Some c /\ srt_dtype r' = Some c.
Proof. exact usual_conversion. Qed.
Print Assumptions C19_usual_conversions.
Example C19_case : promotes DTYPE_UNSIGNED_INT RInt true /\ promotes DTYPE_LONG RLong false
  /\ common_type RInt true RLong false = DTYPE_LONG /\ common_type RLong true RLongLong false = DTYPE_UNSIGNED_LONGLONG.
Proof. split; [exact (promotes_integer RInt true) |]. split; [exact (promotes_integer RLong false) |]. split; reflexivity. Qed.

(** and are otherwise unchanged *)
Theorem C19_operands : forall l r,
  let '(l', r') := perform_usual_arithmetic_conversion l r in
  converted l l' /\ converted r r'.
Proof. exact usual_conversion_operands. Qed.
Print Assumptions C19_operands.

(** C20: the accepted lists of keywords are the permutations of those of C11 6.7.2, with the type given there *)
Theorem C20_accepted : forall k t p cs st d,
  (forall c, In c cs -> keyword (ast_type c)) ->
  (resolve_type_specifier_list k (Ast t p cs) st = rok d st <-> spells (List.map ast_type cs) d).
Proof. exact specifiers_accepted. Qed.
Print Assumptions C20_accepted.
Example C20_case : spells [AST_TYPE_LONG; AST_TYPE_UNSIGNED; AST_TYPE_INT; AST_TYPE_LONG] DTYPE_UNSIGNED_LONGLONG.
Proof.
  exists [AST_TYPE_UNSIGNED; AST_TYPE_LONG; AST_TYPE_LONG; AST_TYPE_INT]. split; [cbn; tauto |]. etransitivity; [apply perm_swap |]. apply perm_skip, perm_skip. apply perm_swap.
Qed.

Theorem C20_rejected : forall k t p cs st,
  (forall c, In c cs -> keyword (ast_type c)) ->
  (forall d, ~ spells (List.map ast_type cs) d) -> resolve_type_specifier_list k (Ast t p cs) st = rerr st.
Proof. exact specifiers_rejected. Qed.
Print Assumptions C20_rejected.

Theorem C20_alone : forall k t p cs st,
  (forall c, In c cs -> keyword (ast_type c) \/ alone (ast_type c)) ->
  (exists c, In c cs /\ alone (ast_type c)) -> (2 <= length cs)%nat ->
  resolve_type_specifier_list k (Ast t p cs) st = rerr st.
Proof. exact specifiers_alone. Qed.
Print Assumptions C20_alone.

(** the order does not matter, wherever typedef stands *)
Theorem C20_order : forall f t p cs cs' st,
  (forall c, In c cs -> keyword (ast_type c) \/ alone (ast_type c) \/ ast_type c = AST_STG_TYPEDEF) ->
  Permutation cs cs' ->
  resolve_decl_specifiers (resolvers (S f)) (Ast t p cs) st = resolve_decl_specifiers (resolvers (S f)) (Ast t p cs') st.
Proof. exact permuted_specifiers. Qed.
Print Assumptions C20_order.
Example C20_order_case : let c t := Ast t PNone [] in Permutation [c AST_TYPE_UNSIGNED; c AST_STG_TYPEDEF; c AST_TYPE_LONG] [c AST_STG_TYPEDEF; c AST_TYPE_LONG; c AST_TYPE_UNSIGNED].
Proof. cbn. etransitivity; [apply perm_swap |]. apply perm_skip, perm_swap. Qed.
