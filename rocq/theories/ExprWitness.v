(** Expressions of C programs, what they mean and what their code computes: examples and counterexamples for C30.
    The last statement of main is the expression; what is before it are declarations. *)
From Coq Require Import FMapPositive.
From Verif Require Import Base DriverModel AstModel SrtModel ResolverModel ImmcModel ImmcgenModel X64Isa OpSpec TypeSpec CSem CProgram ImmcSem GenSpec LabelSpec.
From Verif Require Machine.
Open Scope Z_scope.

(** the expression, the unit and the scopes and world in which it is evaluated *)
Record setting := mksetting { x_unit : unit_; x_scopes : scopes; x_world : world; x_expr : srt }.
Definition no_call : caller := fun _ _ _ => UB.
Definition x_places (u : unit_) : places := places_at [] u Machine.STACK_HIGH.
Fixpoint split_last (l : list srt) : option (list srt * srt) :=
  match l with
  | [] => None
  | [x] => Some ([], x)
  | x :: r => match split_last r with Some (a, b) => Some (x :: a, b) | None => None end
  end.
Definition set_up (src : list Z) : res setting :=
  do toks <- lex_source src; do a <- parse_tokens toks; do s <- resolve a; do u <- translation_unit s;
  match u_functions u with
  | (_, f) :: _ =>
      do Sc0 <- function_scopes f;
      match split_last (f_body f) with
      | Some (ds, Srt SRT_EXPR_STMT _ _ [e]) =>
          let m := mkmem (PositiveMap.empty _) [(Machine.STACK_LOW, Machine.STACK_HIGH)] 170 in
          do Sc <- afters ds Sc0;
          do (r, W) <- exec_list no_call (x_places u) 100 None ds Sc0 (mkworld m 0 []);
          Ok (mksetting u Sc W e)
      | _ => Err
      end
  | [] => Err
  end.
Definition generator (Sc : scopes) : gst := mkgst (s_syms Sc) (s_tags Sc) IMMC_SUFFIX_NONE None 0 (-1) (-1) (-1) (-1) None (-1) 0.
Definition start_state (W : world) : istate := mkist (fun _ => None) [] None W.
Definition the_end : immc := IMMC_INST IMMC_INST_LEAVE None (Some (IMMC_OPERAND_MEM 0)) None.
(** the value of the expression *)
Definition meant (x : setting) : res (Z * world) := eval no_call (x_places (x_unit x)) (x_scopes x) (x_expr x) (x_world x).
(** what is in the result register after its code has run *)
Definition computed (x : setting) : res (option (size * Z)) :=
  do (cs, st) <- gen 50 None (x_expr x) (generator (x_scopes x));
  let P := x_places (x_unit x) in
  match irun no_call (p_label P) (p_frame P) [] 1000 (cs ++ [the_end]) 0 (start_state (x_world x)), g_reg st with
  | IEnd q, Some r => Ok (i_regs q (reg_id r))
  | _, _ => Err
  end.
Definition both (src : list Z) : res (Z * option (size * Z) * bool) :=
  do x <- set_up src; do (v, _) <- meant x; do r <- computed x; Ok (v, r, regular (x_expr x)).

Lemma ends_once call lab frame params C pc q pc' q' : reaches call lab frame params C pc q pc' q' ->
  forall n q1 q2, imove call lab frame params C pc' q' = IEnd q1 -> irun call lab frame params n C pc q = IEnd q2 -> q1 = q2.
Proof.
  induction 1 as [pc q | pc q pc1 q1 pc2 q2 M R IH]; intros n r1 r2 E I.
  - destruct n; cbn [irun] in I; [discriminate I |]. rewrite E in I. now injection I.
  - destruct n; cbn [irun] in I; [discriminate I |]. rewrite M in I. eauto.
Qed.

(** Full statement of C30 *)
Definition code_computes_value : Prop :=
  forall call P params C fuel e st cs st' pre post Sc q v W',
    NoDup (labels C) ->
    (forall n a, p_label P n = Some a -> 0 <= a < 2 ^ 64) -> (forall i, p_string P i = p_label P (create_sliteral_label i)) ->
    gen fuel None e st = Ok (cs, st') -> C = pre ++ cs ++ post ->
    s_syms Sc = g_syms st -> s_tags Sc = g_tags st ->
    eval call P Sc e (i_world q) = Ok (v, W') ->
    exists q', reaches call (p_label P) (p_frame P) params C (length pre) q (length pre + length cs) q'
      /\ i_world q' = W' /\ i_args q' = i_args q /\ i_ret q' = i_ret q /\ (forall k, k <= g_next st -> i_regs q' k = i_regs q k)
      /\ forall d u s, srt_dtype e = Some d -> kind d = Some (u, s) ->
           exists r, g_reg st' = Some r /\ g_next st < reg_id r <= g_next st' /\ suffix_size (g_suffix st') = Some s /\ i_regs q' (reg_id r) = Some (s, low s v).

(** a conversion inside another one is not compiled *)
Definition cast_of_cast := bytes "int main(void){ int x = 300; (int)(char)x + 0; }".
(** the address is taken from the register of the left operand of the assignment *)
Definition assigned_pointer := bytes "int main(void){ int a = 1; int b = 2; int *p = &a; int *q = &b; int **pp = &p; *(*pp = q); }".
(** or from no pointer at all *)
Definition conditional_pointer := bytes "int main(void){ int c = 1; int a = 1; int b = 2; *(c ? &a : &b); }".
(** an index of type char is scaled in one byte *)
Definition char_index := bytes "int main(void){ char c = 70; int a[80]; a[70] = 5; a[6] = 9; *(a + c); }".
(** the count of a shift is not converted *)
Definition shift_count := bytes "int main(void){ int x = 1; x << (char)257; }".

Lemma code_computes_value_refuted : ~ code_computes_value.
Proof.
  intros H. destruct (set_up cast_of_cast) as [x | | | |] eqn:E; [| vm_compute in E; discriminate E ..].
  vm_compute in E. injection E as E.
  set (P := x_places (x_unit x)). set (Sc := x_scopes x). set (e := x_expr x). set (st := generator Sc). set (q := start_state (x_world x)).
  destruct (gen 50 None e st) as [[cs st'] | | | |] eqn:G; [| subst x; vm_compute in G; discriminate G ..].
  destruct (eval no_call P Sc e (i_world q)) as [[v W'] | | | |] eqn:V; [| subst x; vm_compute in V; discriminate V ..].
  destruct (H no_call P [] (cs ++ [the_end]) 50%nat e st cs st' [] [the_end] Sc q v W') as (q' & R & _ & _ & _ & _ & Z); auto.
  - subst x. vm_compute in G. injection G as <- <-. vm_compute. constructor.
  - subst x. intros n a L. unfold P, p_label, x_places, places_at, label in L. cbn in L. destruct (name_eqb n _); discriminate L || (injection L as <-; vm_compute; split; congruence).
  - destruct (irun no_call (p_label P) (p_frame P) [] 1000 (cs ++ [the_end]) 0 q) as [pc qq | q2 |] eqn:I.
    1, 3: subst x; vm_compute in G; injection G as <- <-; vm_compute in I; discriminate I.
    destruct (Z DTYPE_INT false S4) as (r & Gr & _ & _ & Rv); [subst x; reflexivity | reflexivity |].
    assert (q' = q2) as ->.
    { eapply ends_once; [exact R | | exact I]. unfold imove. cbn [length Nat.add]. rewrite nth_error_app2, Nat.sub_diag by reflexivity. reflexivity. }
    subst x. vm_compute in G. injection G as <- <-. vm_compute in V. injection V as <- <-. vm_compute in I. injection I as <-. vm_compute in Gr. injection Gr as <-. vm_compute in Rv. discriminate Rv.
Qed.
