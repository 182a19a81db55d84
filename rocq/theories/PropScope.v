(** C21, C22: scopes.  ScopeSpec reads what is visible off the history of scope entries, exits and declarations. *)
From Verif Require Import Base DtypeModel SymtabModel TypeSpec ScopeSpec ScopeProofs TypeWitness.
Local Open Scope Z_scope.

(** C21: after any history of the symbol table, looking a name up gives the declaration that is visible *)
Theorem C21_lookup : forall h t n,
  runs new_symtab h t -> option_rel declared_as (sym_search t n) (visible 0 h n).
Proof. exact symbol_lookup. Qed.
Print Assumptions C21_lookup.
Example C21_case : exists t, runs new_symtab [Exit; Declare (bytes "x") (DLocal DTYPE_CHAR); Enter; Declare (bytes "x") (DStatic DTYPE_INT)] t
  /\ sym_search t (bytes "x") = Some (mksym SYMBOL_LABEL DTYPE_INT).
Proof.
  eexists. split.
  - eapply runs_exit.
    + eapply runs_memory.
      * apply runs_enter. eapply runs_label; [apply runs_start | vm_compute; reflexivity | vm_compute; reflexivity].
      * vm_compute. reflexivity.
      * vm_compute. reflexivity.
    + vm_compute. discriminate.
    + vm_compute. reflexivity.
  - vm_compute. reflexivity.
Qed.

(** a name can be declared exactly if it is not yet declared in the innermost scope *)
Theorem C21_once : forall h t n,
  runs new_symtab h t -> sym_can_define t n = Ok (negb (declared_here 0 h n)).
Proof. exact symbol_can_define. Qed.
Print Assumptions C21_once.

Theorem C21_redeclared : forall h t n d i,
  runs new_symtab h t -> declared_here 0 h n = true ->
  sym_define_label t n d = Ok t /\ sym_define_memory t n d = Ok t /\ sym_define_integer t n d i = Ok t.
Proof. exact symbol_redeclared. Qed.
Print Assumptions C21_redeclared.

(** leaving a scope restores every lookup, whatever was declared inside (offsets included) *)
Theorem C21_scope_left : forall t0 inner t1 t,
  runs (sym_enter t0) inner t1 -> depth inner = Some O -> sym_exit t1 = Ok t ->
  t0 <> [] -> forall n, sym_search t n = sym_search t0 n.
Proof. exact scope_left. Qed.
Print Assumptions C21_scope_left.

Theorem C21_visible_restored : forall (A : Type) (inner : list (event A)) h n, balanced 0 inner = true ->
  visible 0 (Exit :: inner ++ Enter :: h) n = visible 0 h n.
Proof. exact @visible_scope_left. Qed.
Print Assumptions C21_visible_restored.

(** the same for struct and enum tags *)
Theorem C21_tags : forall h t n,
  tag_runs h t -> option_rel tag_declared_as (tag_search t n) (visible 0 h n).
Proof. exact tag_lookup. Qed.
Print Assumptions C21_tags.

Theorem C21_tags_once : forall h t n,
  tag_runs h t -> tag_can_define t n = Ok (negb (declared_here 0 h n)).
Proof. exact tag_redeclared. Qed.
Print Assumptions C21_tags_once.

(** C22: all stack slots given out since the function was entered are apart from each other and inside the frame.  They are
    multiples of 4 from the frame pointer, which is enough for types of alignment up to 4. *)
Theorem C22_slots_partial : forall t0 h t l,
  allocates t0 h t l -> t0 <> [] -> frame_size t0 = 0 ->
  (t <> [] /\ 0 <= frame_size t) /\ (exists k, depth h = Some k /\ length t = (length t0 + k)%nat) /\
  Forall (slot_in_frame (frame_size t)) l /\ Forall (fun s => (4 | offset s)) l /\
  ForallOrdPairs slots_disjoint l.
Proof. exact stack_slots. Qed.
Print Assumptions C22_slots_partial.
Example C22_case : exists t l, allocates [mkscope [] 0] [Declare (bytes "z") (DLocal DTYPE_INT); Exit; Declare (bytes "y") (DLocal (DTYPE_ARRAY DTYPE_CHAR 5)); Enter; Declare (bytes "x") (DLocal DTYPE_CHAR)] t l
  /\ frame_size t = 16 /\ List.map offset l = [16; 12; 4].
Proof.
  eexists _, _. split.
  - eapply allocates_memory.
    + eapply allocates_exit.
      * eapply allocates_memory.
        { apply allocates_enter.
          eapply allocates_memory; [apply allocates_start | constructor | vm_compute; reflexivity | vm_compute; reflexivity | vm_compute; reflexivity]. }
        { repeat constructor. }
        { vm_compute. reflexivity. }
        { vm_compute. reflexivity. }
        { vm_compute. reflexivity. }
      * vm_compute. discriminate.
      * vm_compute. reflexivity.
    + constructor.
    + vm_compute. reflexivity.
    + vm_compute. reflexivity.
    + vm_compute. reflexivity.
  - split; vm_compute; reflexivity.
Qed.

(** An 8-byte object after a 4-byte one is not aligned *)
Theorem C22_alignment_refuted : exists t0 h t l, allocates t0 h t l /\ t0 <> [] /\ frame_size t0 = 0
  /\ exists s, In s l /\ ~ (alignof (of_type s) | offset s).
Proof. exact unaligned_slot_witness. Qed.
Print Assumptions C22_alignment_refuted.
