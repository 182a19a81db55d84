(** C30: the intermediate code of an expression against the C semantics (CSem, ImmcSem) *)
From Verif Require Import Base DriverModel AstModel SrtModel ResolverModel ImmcModel ImmcgenModel X64Isa OpSpec TypeSpec CSem CProgram ImmcSem GenSpec LabelSpec ExprProofs8 ExprWitness.
Local Open Scope Z_scope.

(** C30.  Wherever its code stands among code with distinct labels, running it from any state reaches its end with the side effects
    of the expression, the value of the expression in the result register, and what was live before unchanged. Whatever functions do is
    a parameter ([call]). Missing: the expressions [regular] leaves out (GenSpec), for which it is false, as shown below. *)
Theorem C30_expression_code_partial : forall call P params C fuel e st cs st' pre post Sc q v W',
  NoDup (labels C) ->
  (forall n a, p_label P n = Some a -> 0 <= a < 2 ^ 64) -> (forall i, p_string P i = p_label P (create_sliteral_label i)) ->
  gen fuel None e st = Ok (cs, st') -> regular e = true -> C = pre ++ cs ++ post ->
  s_syms Sc = g_syms st -> s_tags Sc = g_tags st ->
  eval call P Sc e (i_world q) = Ok (v, W') ->
  exists q', reaches call (p_label P) (p_frame P) params C (length pre) q (length pre + length cs) q'
    /\ i_world q' = W' /\ i_args q' = i_args q /\ i_ret q' = i_ret q /\ (forall k, k <= g_next st -> i_regs q' k = i_regs q k)
    /\ forall d u s, srt_dtype e = Some d -> kind d = Some (u, s) ->
         exists r, g_reg st' = Some r /\ g_next st < reg_id r <= g_next st' /\ suffix_size (g_suffix st') = Some s /\ i_regs q' (reg_id r) = Some (s, low s v).
Proof. exact code_computes_regular. Qed.
Print Assumptions C30_expression_code_partial.
Definition C30_source := bytes "struct s { int a; char b[3]; long long c; }; int main(void){ int x = 1; char c = 3; unsigned int y = 9; long long z = 5; struct s t; struct s *p = &t; int v[4]; int *w = v + 3; t.c = 100; v[3] = 40; y = (x + 2 * y > 9 && c ? c : x++) - (p->c << 2) + *w-- - (w - v) * c | (z != 3 || !x); }".
Example C30_case : exists x cs st' v W', set_up C30_source = Ok x /\ gen 50 None (x_expr x) (generator (x_scopes x)) = Ok (cs, st') /\ regular (x_expr x) = true
  /\ meant x = Ok (v, W') /\ v = 4294966933 /\ computed x = Ok (Some (S4, 4294966933)) /\ length cs = 62%nat.
Proof. eexists. eexists. eexists. eexists. eexists. do 6 (split; [vm_compute; reflexivity |]). vm_compute. reflexivity. Qed.

(** C30, without the restriction to [regular] expressions. *)
Theorem C30_expression_code_refuted : ~ code_computes_value.
Proof. exact code_computes_value_refuted. Qed.
Print Assumptions C30_expression_code_refuted.
(** A few of the expressions left out: what C says, and what is in the result register *)
Example C30_cast_of_cast : both cast_of_cast = Ok (44, Some (S4, 300), false).
Proof. vm_compute. reflexivity. Qed.
Example C30_assigned_pointer : both assigned_pointer = Ok (2, Some (S4, 8388600), false).
Proof. vm_compute. reflexivity. Qed.
Example C30_char_index : both char_index = Ok (5, Some (S4, 9), false).
Proof. vm_compute. reflexivity. Qed.
Example C30_conditional_pointer : exists x v W', set_up conditional_pointer = Ok x /\ meant x = Ok (v, W') /\ v = 1 /\ computed x = Err.
Proof. eexists. eexists. eexists. do 3 (split; [vm_compute; reflexivity |]). vm_compute. reflexivity. Qed.
Example C30_shift_count : exists x v W', set_up shift_count = Ok x /\ meant x = Ok (v, W') /\ v = 2 /\ computed x = Err.
Proof. eexists. eexists. eexists. do 3 (split; [vm_compute; reflexivity |]). vm_compute. reflexivity. Qed.
