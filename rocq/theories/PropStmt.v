(** C31, C33: the intermediate code of statements and of initialisers of local objects against the C semantics (CSem, ImmcSem) *)
From Verif Require Import Base DriverModel AstModel SrtModel ResolverModel ImmcModel ImmcgenModel X64Isa OpSpec TypeSpec CSem CProgram ImmcSem GenSpec InitSpec LabelSpec StmtProofs4 ExprWitness StmtWitness.
From Verif Require Machine.
Local Open Scope Z_scope.

(** C31.  Wherever its code stands among code with distinct labels, running it from any state has the effect of the statement and goes
    where the statement goes: behind it, or to the label of the loop or switch it leaves, or to the end of the function with the value to
    return. [exec] is the statement in C (CSem). Missing: what [regular_stmt] leaves out (GenSpec), for which it is false, as shown below. *)
Theorem C31_statement_code_partial : forall call P params C fuel s st cs st' pre post Sc q n fl W',
  NoDup (labels C) ->
  (forall n a, p_label P n = Some a -> 0 <= a < 2 ^ 64) -> (forall i, p_string P i = p_label P (create_sliteral_label i)) ->
  gen fuel None s st = Ok (cs, st') -> regular_stmt Sc s = true -> C = pre ++ cs ++ post ->
  s_syms Sc = g_syms st -> s_tags Sc = g_tags st -> (2 <= length (g_syms st))%nat -> 0 <= g_label st ->
  exec call P n None s Sc (i_world q) = Ok (fl, W') ->
  exists q', i_world q' = W' /\ i_args q' = i_args q /\ i_ret q' = (match fl with Return (Some v) => Some v | _ => i_ret q end) /\
    let arrives k := reaches call (p_label P) (p_frame P) params C (length pre) q k q' in
    match fl with
    | Normal => arrives (length pre + length cs)%nat
    | Break => forall k, label_at (create_label_name (g_brk st)) C = Some k -> arrives k
    | Continue => forall k, label_at (create_label_name (g_cont st)) C = Some k -> arrives k
    | Return _ => forall k, label_at (create_label_name (g_ret st)) C = Some k -> arrives k
    | Seeking => False
    end.
Proof. exact statement_code. Qed.
Print Assumptions C31_statement_code_partial.
Definition C31_source := bytes "int main(void){ int x = 0; int i; { for (i = 0; i < 20; i++) { switch (i % 4) { case 0: x = x + 1; case 1: x = x + 10; break; default: if (i > 9) continue; while (1) { x = x + 100; if (x > 600) break; } } if (i == 15) break; } } }".
Example C31_case : both_ways C31_source (bytes "x") = Ok (Normal, Some 1005, Some 1005, true).
Proof. vm_compute. reflexivity. Qed.
Definition C31_source2 := bytes "int main(void){ int x = 0; while (1) { x = x + 3; if (x > 20) { return x * 2; } } }".
Example C31_case2 : exists x q, set_stmt C31_source2 = Ok x /\ regular_stmt (n_scopes x) (n_stmt x) = true /\ outcome x = Ok (Return (Some (S4, 42)), i_world q) /\ i_world q <> n_world x.
Proof. eexists. eexists (mkist (fun _ => None) [] None _). split; [vm_compute; reflexivity |]. split; [vm_compute; reflexivity |]. split; [vm_compute; reflexivity |]. vm_compute. discriminate. Qed.

(** C31, without the restriction to [regular_stmt]. *)
Theorem C31_statement_code_refuted : ~ code_follows_flow.
Proof. exact code_follows_flow_refuted. Qed.
Print Assumptions C31_statement_code_refuted.
Example C31_wide_case : both_ways wide_case (bytes "y") = Ok (Normal, Some 7, Some 0, false).
Proof. vm_compute. reflexivity. Qed.

(** C33.  The code of an initialiser, in a function, has the effect of the initialisation in C ([initialise]: every scalar in order, at its
    place in the object). Missing: what [regular_init] leaves out (GenSpec), for which it is false, as shown below. *)
Theorem C33_initialiser_code_partial : forall call P params C fuel s d k st cs st' pre post Sc q W',
  NoDup (labels C) ->
  (forall n a, p_label P n = Some a -> 0 <= a < 2 ^ 64) -> (forall i, p_string P i = p_label P (create_sliteral_label i)) ->
  gen fuel (Some d) s st = Ok (cs, st') -> regular_init (s_tags Sc) s d = Some k -> C = pre ++ cs ++ post ->
  s_syms Sc = g_syms st -> s_tags Sc = g_tags st -> (2 <= length (g_syms st))%nat ->
  initialise call P Sc s d (low S8 (p_frame P - g_off st)) (i_world q) = Ok W' ->
  exists q', reaches call (p_label P) (p_frame P) params C (length pre) q (length pre + length cs) q' /\ i_world q' = W' /\ i_args q' = i_args q /\ i_ret q' = i_ret q.
Proof. exact initialiser_code. Qed.
Print Assumptions C33_initialiser_code_partial.

(** C33.  If the scalars of the initialiser have values that do not depend on memory and no side effects, then after its code
    every scalar of the object holds its value, every character of a string literal is in place, and no byte outside the object has
    changed. [scalar_at] and [char_at] say which scalar and which character belong where (InitSpec). *)
Theorem C33_initialiser_stores_partial : forall call P params C fuel s d k st cs st' pre post Sc q W' val,
  NoDup (labels C) ->
  (forall n a, p_label P n = Some a -> 0 <= a < 2 ^ 64) -> (forall i, p_string P i = p_label P (create_sliteral_label i)) ->
  gen fuel (Some d) s st = Ok (cs, st') -> regular_init (s_tags Sc) s d = Some k -> C = pre ++ cs ++ post ->
  s_syms Sc = g_syms st -> s_tags Sc = g_tags st -> (2 <= length (g_syms st))%nat ->
  laid_out (s_tags Sc) d ->
  (forall off t e, scalar_at (s_tags Sc) s d off t e -> forall W v W', eval call P Sc e W = Ok (v, W') -> v = val e /\ w_mem W' = w_mem W) ->
  let a := low S8 (p_frame P - g_off st) in
  initialise call P Sc s d a (i_world q) = Ok W' ->
  exists q', reaches call (p_label P) (p_frame P) params C (length pre) q (length pre + length cs) q' /\
    let M := w_mem (i_world q) in let M' := w_mem (i_world q') in
    (forall b, 0 <= b -> ~ (a <= b < a + sizeof d) -> peek M' b = peek M b) /\
    (forall off t e, scalar_at (s_tags Sc) s d off t e -> 0 <= off /\ off + sizeof t <= sizeof d /\ exists u z, kind t = Some (u, z) /\ holds M' (a + off) (size_bytes z) (low z (val e))) /\
    (forall off c, char_at (s_tags Sc) s d off c -> 0 <= off < sizeof d /\ peek M' (a + off) = c mod 256).
Proof. exact initialiser_stores. Qed.
Print Assumptions C33_initialiser_stores_partial.
Definition C33_source := bytes "struct s { char c; int a[2]; long long b; }; int main(void){ struct s v = {'x', {1, 2}, 4}; }".
Definition C33_tree : res (srt * dtype * scopes) := do x <- set_stmt C33_source; match last_init x with Some r => Ok r | None => Err end.
Example C33_case : exists s d Sc cs st', C33_tree = Ok (s, d, Sc) /\ gen 50 (Some d) s (gset_off 24 (generator Sc)) = Ok (cs, st') /\ regular_init (s_tags Sc) s d = Some 24
  /\ laid_out (s_tags Sc) d
  /\ (exists W, initialise no_call (x_places (mkunit Sc [] [])) Sc s d (Machine.STACK_HIGH - 24) (mkworld (mkmem (FMapPositive.PositiveMap.empty _) [(Machine.STACK_LOW, Machine.STACK_HIGH)] 170) 0 []) = Ok W)
  /\ exists e, scalar_at (s_tags Sc) s d 8 DTYPE_INT e /\ forall W v W', eval no_call (x_places (mkunit Sc [] [])) Sc e W = Ok (v, W') -> v = 2 /\ W' = W.
Proof.
  eexists. eexists. eexists. eexists. eexists. split; [vm_compute; reflexivity |]. split; [vm_compute; reflexivity |]. split; [vm_compute; reflexivity |]. split.
  - eapply lo_struct; [vm_compute; reflexivity |].
    repeat (apply mo_cons; [vm_compute; discriminate | (apply lo_scalar; discriminate) || (apply lo_array; [lia | apply lo_scalar; discriminate]) |]). apply mo_nil. vm_compute. discriminate.
  - split; [eexists; vm_compute; reflexivity |]. eexists. split.
    + change 8 with (4 + (Z.of_nat 1 * sizeof DTYPE_INT + 0)). eapply (sa_member _ _ _ _ _ _ 1%nat); [vm_compute; reflexivity .. |]. eapply (sa_element _ _ _ _ _ _ 1%nat); [reflexivity .. |]. apply sa_scalar. discriminate.
    + intros W v W' H. vm_compute in H. injection H as <- <-. auto.
Qed.

(** C33, without the restriction to [regular_init]: the elements of an array of structs with padding at the end are stored too close. *)
Theorem C33_initialiser_code_refuted : ~ code_initialises.
Proof. exact code_initialises_refuted. Qed.
Print Assumptions C33_initialiser_code_refuted.
