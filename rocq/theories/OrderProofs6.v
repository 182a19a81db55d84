(** Proofs for C35 and C36: expressions do not change the labels of the switch around them *)
From Verif Require Import Base AstModel DtypeModel SymtabModel SrtModel ImmcModel ImmcgenModel ElabProofs LabelProofs GenSpec OrderProofs3.
Local Open Scope Z_scope.

Definition keep (st st' : gst) : Prop :=
  (g_cases st' = g_cases st /\ g_default st' = g_default st) /\ (g_brk st' = g_brk st /\ g_cont st' = g_cont st /\ g_ret st' = g_ret st) /\ length (g_syms st') = length (g_syms st).
Lemma keep_refl st : keep st st.
Proof. repeat split. Qed.
Ltac keeps := unfold keep in *; cbn [g_cases g_default g_brk g_cont g_ret g_syms gset_label gset_next gset_reg update_void_expr_register] in *; repeat match goal with H : _ /\ _ |- _ => destruct H end; repeat split; congruence.
Lemma keep_trans a b c : keep a b -> keep b c -> keep a c.
Proof. intros. keeps. Qed.
Lemma keep_update dst st st' : update_non_void_expr_register dst st = Ok st' -> keep st st'.
Proof. unfold update_non_void_expr_register. intros H. ginv H. injection H as <-. keeps. Qed.
Lemma keep_dest s st o st' : create_dest_reg s st = Ok (o, st') -> keep st st'.
Proof. unfold create_dest_reg, next_reg. intros H. ginv H. cbv zeta in H. injection H as _ <-. keeps. Qed.
Lemma exprs_child e x : exprs e = true -> In x (srt_children e) -> exprs x = true.
Proof. destruct e as [t d p cs]. cbn. intros H I. apply andb_prop in H as [_ H]. rewrite forallb_forall in H. auto. Qed.
Lemma exprs_gchild e i x : exprs e = true -> gchild e i = Ok x -> exprs x = true.
Proof. intros H E. eapply exprs_child; [exact H | eapply child_in, E]. Qed.
Lemma strip_exprs : forall s e, exprs s = true -> strip_casts s = Ok e -> exprs e = true.
Proof.
  fix IH 1. intros [t d p cs] e I H. destruct t; cbn [strip_casts] in H; try (injection H as <-; exact I).
  destruct cs as [| x cs]; [discriminate H |]. eapply IH; [| exact H]. apply (exprs_child _ _ I). now left.
Qed.
Section Keep.
Variable gen : option dtype -> srt -> gst -> gres.
Hypothesis G : forall e st cs st', exprs e = true -> gen None e st = Ok (cs, st') -> keep st st'.
Lemma keep_int s i st cs o st' c : gchild s i = Ok c -> exprs c = true -> gen_child_int gen s i st = Ok (cs, o, st') -> keep st st'.
Proof.
  unfold gen_child_int, next_reg. intros E X H. ginv H. rewrite E in M. injection M as <-. assert (X1 : exprs x1 = true) by (eapply strip_exprs; eauto). destruct (srt_is x1 SRT_ILITERAL_EXPR).
  - ginv H. injection H as _ _ <-. apply keep_refl.
  - ginv H. apply (G _ _ _ _ X1) in M. destruct x0; injection H as _ _ <-; [keeps | exact M].
Qed.
Lemma keep_reg s i st cs o st' c : gchild s i = Ok c -> exprs c = true -> gen_child_reg gen s i st = Ok (cs, o, st') -> keep st st'.
Proof.
  unfold gen_child_reg, next_reg. intros E X H. ginv H. apply (keep_int _ _ _ _ _ _ _ E X) in M. destruct o0; try discriminate H; injection H as _ _ <-; [exact M | keeps].
Qed.
Lemma keep_ptr s i st cs o st' : exprs s = true -> gen_child_ptr gen s i st = Ok (cs, o, st') -> keep st st'.
Proof.
  unfold gen_child_ptr. intros X H. ginv H. assert (X1 : exprs x = true) by (eapply exprs_gchild; eauto). destruct x0; ginv H; injection H as _ _ <-; [apply keep_refl |]. eapply G; eassumption.
Qed.
Lemma int_child s i st r : gen_child_int gen s i st = Ok r -> exists c, gchild s i = Ok c.
Proof. unfold gen_child_int. intros H. ginv H. eauto. Qed.
Lemma reg_child s i st r : gen_child_reg gen s i st = Ok r -> exists c, gchild s i = Ok c.
Proof. unfold gen_child_reg. intros H. ginv H. eapply int_child; eauto. Qed.
Ltac known := repeat match goal with
  | X : exprs ?s = true, M : gen_child_int gen ?s _ _ = Ok (_, _, _) |- _ => let c := fresh "c" in let E := fresh "E" in destruct (int_child _ _ _ _ M) as (c & E); apply (keep_int _ _ _ _ _ _ _ E (exprs_gchild _ _ _ X E)) in M
  | X : exprs ?s = true, M : gen_child_reg gen ?s _ _ = Ok (_, _, _) |- _ => let c := fresh "c" in let E := fresh "E" in destruct (reg_child _ _ _ _ M) as (c & E); apply (keep_reg _ _ _ _ _ _ _ E (exprs_gchild _ _ _ X E)) in M
  | X : exprs ?s = true, M : gen_child_ptr gen ?s _ _ = Ok (_, _, _) |- _ => apply (keep_ptr _ _ _ _ _ _ X) in M
  | M : update_non_void_expr_register _ _ = Ok _ |- _ => apply keep_update in M
  | M : create_dest_reg _ _ = Ok (_, _) |- _ => apply keep_dest in M
  end.
Lemma keep_jmp_cond s i t st cs j st' : (forall c, gchild s i = Ok c -> exprs c = true) -> gen_jmp_cond gen s i t st = Ok (cs, j, st') -> keep st st'.
Proof.
  unfold gen_jmp_cond. intros X H. ginv H. assert (X1 := X _ M). destruct (get_cjmp_inst_type (srt_type x) t).
  - ginv H. known. injection H as _ _ <-. keeps.
  - ginv H. apply (keep_reg _ _ _ _ _ _ _ M X1) in M0. injection H as _ _ <-. exact M0.
Qed.
Lemma keep_append_jmp s i t l st cs st' : (forall c, gchild s i = Ok c -> exprs c = true) -> append_jmp gen s i t l st = Ok (cs, st') -> keep st st'.
Proof. unfold append_jmp. intros X H. ginv H. injection H as _ <-. eapply keep_jmp_cond; eassumption. Qed.
Ltac start H := intros; ginv H; cbv zeta in H; ginv H; known; injection H as _ <-; keeps.
Lemma keep_args p : exprs p = true -> forall n st cs st', gen_args gen p n st = Ok (cs, st') -> keep st st'.
Proof. intros X. induction n as [| i IH]; intros st cs st' H; cbn in H; [injection H as _ <-; apply keep_refl |]. ginv H. apply IH in M0. known. injection H as _ <-. keeps. Qed.
Lemma keep_body e st cs st' : exprs e = true -> gen_body gen None e st = Ok (cs, st') -> keep st st'.
Proof.
  intros X H. unfold gen_body in H.
  assert (TM : forall a s st cs st', exprs s = true -> gen_tomember_address_expr gen a s st = Ok (cs, st') -> keep st st').
  { clear H. unfold gen_tomember_address_expr. intros a s g l g' X' H. ginv H. known. injection H as _ <-. keeps. }
  destruct (srt_type e) eqn:T; try discriminate H; try (exfalso; destruct e; cbn in X, T; rewrite T in X; discriminate X).
  all: unfold gen_assignment_expr, gen_conditional_expr, gen_logical_expr, gen_binary_expr, gen_pointer_additive_expr, gen_pointer_diff_expr, gen_address_expr, gen_indirection_expr, gen_positive_expr, gen_neg_not_expr, gen_logical_not_expr, gen_tomember_expr, gen_incdec_expr, gen_primary_expr, next_label in H.
  all: cbv zeta in H; ginv H; cbv zeta in H; rewrite ?T in H.
  all: repeat match goal with M : append_jmp _ _ _ _ _ _ = Ok _ |- _ => apply (keep_append_jmp _ _ _ _ _ _ _ (fun c E => exprs_gchild _ _ _ X E)) in M | M : gen_tomember_address_expr _ _ _ _ = Ok _ |- _ => apply (TM _ _ _ _ _ X) in M end.
  all: try (ginv H; known; injection H as _ <-; keeps).
  - assert (X1 : exprs x = true) by (eapply exprs_gchild; eauto). destruct (srt_type x); try discriminate H.
    + unfold append_child in H. ginv H. eapply G; [| exact H]. eapply exprs_gchild; eauto.
    + eapply TM; eassumption.
    + unfold gen_identifier_address_expr in H. ginv H. known. injection H as _ <-. keeps.
    + unfold gen_string_address_expr in H. ginv H. known. injection H as _ <-. keeps.
  - unfold gen_call_expr in H. apply bind_ok in H as (p & E & H). cbv zeta in H. ginv H. injection H as _ <-. apply (keep_args _ (exprs_gchild _ _ _ X E)) in M. known.
    assert (S : keep g0 g1). { destruct (is_void x); [injection M2 as _ <-; apply keep_refl |]. ginv M2. known. injection M2 as _ <-. assumption. }
    assert (S' : keep g1 x0). { destruct o0; [now apply keep_update in M3 | injection M3 as <-; keeps]. }
    clear M2 M3. keeps.
Qed.
End Keep.
Lemma gen_expr_keep : forall f e st cs st', exprs e = true -> gen f None e st = Ok (cs, st') -> keep st st'.
Proof. induction f as [| f IH]; intros e st cs st' X H; [discriminate H |]. exact (keep_body _ IH _ _ _ _ X H). Qed.
