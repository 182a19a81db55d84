(** Code generation for expressions leaves the scopes and jump targets as they are and takes new registers *)
From Verif Require Import Base SrtModel ImmcModel ImmcgenModel X64Isa OpSpec TypeSpec CSem GenSpec ElabProofs.
Open Scope Z_scope.

Record stable (st st' : gst) : Prop := mkstable {
  st_syms : g_syms st' = g_syms st;
  st_tags : g_tags st' = g_tags st;
  st_off : g_off st' = g_off st;
  st_cont : g_cont st' = g_cont st;
  st_brk : g_brk st' = g_brk st;
  st_ret : g_ret st' = g_ret st;
  st_cases : g_cases st' = g_cases st;
  st_default : g_default st' = g_default st;
  st_next : g_next st <= g_next st';
  st_label : g_label st <= g_label st'
}.
Lemma stable_refl st : stable st st.
Proof. split; try reflexivity. Qed.
Lemma stable_trans a b c : stable a b -> stable b c -> stable a c.
Proof. intros [] []. split; try congruence; lia. Qed.
Lemma stable_reg sf r st : stable st (gset_reg sf r st).
Proof. split; cbn; try reflexivity. Qed.
Lemma stable_label x st : g_label st <= x -> stable st (gset_label x st).
Proof. intros H. split; cbn; try reflexivity; exact H. Qed.
Lemma stable_next st : stable st (gset_next (g_next st + 1) st).
Proof. split; cbn; try reflexivity; lia. Qed.

Ltac ginv H :=
  repeat match type of H with
  | bind _ _ = Ok _ => let x := fresh "x" in let M := fresh "M" in apply bind_ok in H as (x & M & H); cbv beta in H
  | (let 'pair _ _ := ?x in _) = _ => is_var x; destruct x
  end; cbv beta iota in H.

Lemma update_stable dst st st' : update_non_void_expr_register dst st = Ok st' -> stable st st'.
Proof. unfold update_non_void_expr_register. intros H. ginv H. injection H as <-. apply stable_reg. Qed.
Lemma dest_stable s st o st' : create_dest_reg s st = Ok (o, st') -> stable st st'.
Proof. unfold create_dest_reg, next_reg. intros H. ginv H. injection H as _ <-. apply stable_next. Qed.

Lemma forallb_nth {A} (f : A -> bool) l i x : forallb f l = true -> nth_error l i = Some x -> f x = true.
Proof. intros F N. rewrite forallb_forall in F. apply F. eapply nth_error_In, N. Qed.
Definition kids (s : srt) : bool := forallb regular (srt_children s).
Lemma kid s i x : kids s = true -> gchild s i = Ok x -> regular x = true.
Proof. unfold kids, gchild, deref. intros K H. destruct (nth_error _ _) eqn:E; [| discriminate H]. injection H as <-. eapply forallb_nth; eauto. Qed.
Lemma regular_kids s : regular s = true -> kids s = true.
Proof. destruct s as [t d p cs]. cbn. intros H. apply andb_prop in H as [_ H]. exact H. Qed.
Lemma regular_is_expr s : regular s = true -> is_expr (srt_type s) = true.
Proof. destruct s as [t d p cs]. cbn. intros H. apply andb_prop in H as [H _]. apply andb_prop in H as [H _]. exact H. Qed.
Lemma regular_regular_node s : regular s = true -> regular_node s = true.
Proof. destruct s as [t d p cs]. cbn -[regular_node]. intros H. apply andb_prop in H as [H _]. apply andb_prop in H as [_ H]. exact H. Qed.
Lemma strip_regular : forall s e, regular s = true -> strip_casts s = Ok e -> regular e = true.
Proof.
  fix IH 1. intros [t d p cs] e R H. destruct t; cbn [strip_casts] in H; try (injection H as <-; exact R).
  destruct cs as [| x cs]; [discriminate H |]. apply (IH x); [| exact H]. apply regular_kids in R. cbn in R.
  apply andb_prop in R. apply R.
Qed.

Section Stable.
Variable gen : option dtype -> srt -> gst -> gres.
Hypothesis G : forall od s st cs st', regular s = true -> gen od s st = Ok (cs, st') -> stable st st'.

Ltac st := repeat match goal with M : stable _ _ |- _ => destruct M end; cbn [g_syms g_tags g_off g_cont g_brk g_ret g_cases g_default g_next g_label gset_reg gset_next gset_label] in *; split; cbn [g_syms g_tags g_off g_cont g_brk g_ret g_cases g_default g_next g_label gset_reg gset_next gset_label]; (congruence || lia).

Lemma stable_child s i st cs st' : kids s = true -> append_child gen s i st = Ok (cs, st') -> stable st st'.
Proof. unfold append_child. intros K H. ginv H. eapply G; [| exact H]. eapply kid; eauto. Qed.
Lemma stable_int s i st cs o st' : kids s = true -> gen_child_int gen s i st = Ok (cs, o, st') -> stable st st'.
Proof.
  unfold gen_child_int, next_reg. intros K H. ginv H. assert (R : regular x1 = true) by (eapply strip_regular; [eapply kid; eauto | eassumption]).
  destruct (srt_is x1 SRT_ILITERAL_EXPR).
  - ginv H. injection H as _ _ <-. apply stable_refl.
  - ginv H. assert (A := G _ _ _ _ _ R M2). destruct x0 as [d |]; injection H as _ _ <-; [| exact A].
    eapply stable_trans; [exact A | apply stable_next].
Qed.
Lemma stable_reg_ s i st cs o st' : kids s = true -> gen_child_reg gen s i st = Ok (cs, o, st') -> stable st st'.
Proof.
  unfold gen_child_reg, next_reg. intros K H. ginv H. assert (A := stable_int _ _ _ _ _ _ K M).
  destruct o0; try discriminate H; injection H as _ _ <-; [exact A |]. eapply stable_trans; [exact A | apply stable_next].
Qed.
Lemma stable_ptr s i st cs o st' : kids s = true -> gen_child_ptr gen s i st = Ok (cs, o, st') -> stable st st'.
Proof.
  unfold gen_child_ptr. intros K H. ginv H. assert (R : regular x = true) by (eapply kid; eauto).
  destruct x0; ginv H; injection H as _ _ <-; [apply stable_refl | exact (G _ _ _ _ _ R M1)].
Qed.
Ltac known :=
  repeat match goal with
  | M : gen_child_int gen _ _ ?st = Ok (_, _, _) |- _ => eapply stable_int in M; [| eassumption]
  | M : gen_child_reg gen _ _ ?st = Ok (_, _, _) |- _ => eapply stable_reg_ in M; [| eassumption]
  | M : gen_child_ptr gen _ _ ?st = Ok (_, _, _) |- _ => eapply stable_ptr in M; [| eassumption]
  | M : append_child gen _ _ ?st = Ok (_, _) |- _ => eapply stable_child in M; [| eassumption]
  | M : update_non_void_expr_register _ _ = Ok _ |- _ => apply update_stable in M
  | M : create_dest_reg _ _ = Ok (_, _) |- _ => apply dest_stable in M
  end.
Lemma stable_jmp_cond s i t st cs j st' : kids s = true -> gen_jmp_cond gen s i t st = Ok (cs, j, st') -> stable st st'.
Proof.
  unfold gen_jmp_cond. intros K H. ginv H. assert (R : regular x = true) by (eapply kid; eauto). apply regular_kids in R.
  destruct (get_cjmp_inst_type (srt_type x) t); ginv H; injection H as _ _ <-; known; st.
Qed.
Lemma stable_jmp s i t l st cs st' : kids s = true -> append_jmp gen s i t l st = Ok (cs, st') -> stable st st'.
Proof. unfold append_jmp. intros K H. ginv H. injection H as _ <-. eapply stable_jmp_cond; eauto. Qed.
Lemma stable_tomember_address a s st cs st' : kids s = true -> gen_tomember_address_expr gen a s st = Ok (cs, st') -> stable st st'.
Proof. unfold gen_tomember_address_expr. intros K H. ginv H. injection H as _ <-. known. st. Qed.
Lemma stable_args p : kids p = true -> forall n st cs st', gen_args gen p n st = Ok (cs, st') -> stable st st'.
Proof.
  intros K. induction n as [| n IH]; intros st cs st' H; cbn in H; [injection H as _ <-; apply stable_refl |].
  ginv H. injection H as _ <-. apply IH in M0. known. st.
Qed.
Lemma stable_body od s st cs st' : regular s = true -> gen_body gen od s st = Ok (cs, st') -> stable st st'.
Proof.
  intros R H. assert (K := regular_kids _ R). assert (T := regular_is_expr _ R). unfold gen_body in H.
  destruct (srt_type s) eqn:E; try discriminate T; try discriminate H;
  unfold gen_assignment_expr, gen_conditional_expr, gen_logical_expr, gen_binary_expr, gen_pointer_additive_expr, gen_pointer_diff_expr,
    gen_indirection_expr, gen_positive_expr, gen_neg_not_expr, gen_logical_not_expr, gen_primary_expr, gen_tomember_expr, next_label in H;
  try (cbv zeta in H; ginv H; injection H as _ <-; repeat match goal with M : append_jmp gen _ _ _ _ _ = Ok _ |- _ => eapply stable_jmp in M; [| eassumption] end; known; solve [st]).
  - unfold gen_incdec_expr in H. cbv zeta in H. ginv H. rewrite E in H. ginv H. injection H as _ <-. known. st.
  - unfold gen_incdec_expr in H. cbv zeta in H. ginv H. rewrite E in H. ginv H. injection H as _ <-. known. st.
  - unfold gen_address_expr in H. ginv H. assert (R1 : regular x = true) by (eapply kid; eauto). apply regular_kids in R1.
    destruct (srt_type x); try discriminate H.
    + unfold append_child in H. ginv H. eapply G; [eapply kid; eassumption | exact H].
    + eapply stable_tomember_address; eassumption.
    + unfold gen_identifier_address_expr in H. ginv H. injection H as _ <-. known. st.
    + unfold gen_string_address_expr in H. ginv H. injection H as _ <-. known. st.
  - unfold gen_call_expr in H. cbv zeta in H. ginv H. assert (R1 : regular x = true) by (eapply kid; eauto). apply regular_kids in R1.
    apply (stable_args _ R1) in M0. injection H as _ <-.
    assert (A : stable g0 g1). { destruct (is_void x0); ginv M3; [injection M3 as _ <-; apply stable_refl |]. injection M3 as _ <-. known. st. }
    assert (B : stable g1 x1). { destruct o0; [apply update_stable in M4; exact M4 | injection M4 as <-; apply stable_reg]. }
    known. st.
  - cbv zeta in H. ginv H. injection H as _ <-. eapply stable_tomember_address in M0; [| exact K]. known. st.
  - unfold gen_incdec_expr in H. cbv zeta in H. ginv H. rewrite E in H. ginv H. injection H as _ <-. known. st.
  - unfold gen_incdec_expr in H. cbv zeta in H. ginv H. rewrite E in H. ginv H. injection H as _ <-. known. st.
Qed.
End Stable.

Theorem gen_stable : forall f od s st cs st', regular s = true -> gen f od s st = Ok (cs, st') -> stable st st'.
Proof.
  induction f as [| f IH]; intros od s st cs st' R H; [discriminate H |]. cbn [gen] in H.
  eapply stable_body; [| exact R | exact H]. exact IH.
Qed.
