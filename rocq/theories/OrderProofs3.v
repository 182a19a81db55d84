(** Proofs for C35 and C36: expressions *)
From Verif Require Import Base AstModel DtypeModel SymtabModel SrtModel ImmcModel ImmcSem ImmcgenModel TypeSpec ElabSpec ElabProofs ResolverSpec ResolverProofs LabelSpec LabelProofs LabelProofs2 RegSpec GenSpec OrderSpec OrderProofs.
Local Open Scope Z_scope.
#[local] Arguments create_label_name : simpl never.
#[local] Arguments create_sliteral_label : simpl never.

(** a tree of expressions *)
Fixpoint exprs (e : srt) : bool := let 'Srt t _ _ cs := e in is_expr t && forallb exprs cs.
Definition fine (x : srt) : Prop := node_typed x /\ pointer_last x = true.
Definition good (e : srt) : Prop := everywhere fine e /\ exprs e = true.
Definition opr (o : ope) : list Z := operand_register (Some o).
(** the code of expression [e]: its value, if it ElabSpec.has one, is in a register *)
Definition expr_ok (e : srt) (st : gst) (cs : list immc) (st' : gst) : Prop :=
  (exists r, g_reg st' = Some r /\ code (g_next st) cs (g_next st') [reg_id r] [reg_id r] /\ (computed_last e = true -> reg_id r = g_next st'))
  \/ (g_reg st' = None /\ code (g_next st) cs (g_next st') [] [] /\ ElabSpec.has e DTYPE_VOID).

Lemma good_child e x : good e -> In x (srt_children e) -> good x.
Proof.
  intros [H I] J. split; [now apply (everywhere_child _ _ _ H) |]. destruct e as [t d p cs]. cbn in *. apply andb_prop in I as [_ I]. rewrite forallb_forall in I. now apply I.
Qed.
Lemma good_gchild e i x : good e -> gchild e i = Ok x -> good x.
Proof. intros G E. eapply good_child; [exact G | eapply child_in, E]. Qed.
Lemma strip_good : forall s e, good s -> strip_casts s = Ok e -> good e.
Proof.
  fix IH 1. intros [t d p cs] e I H. destruct t; cbn [strip_casts] in H; try (injection H as <-; exact I).
  destruct cs as [| x cs]; [discriminate H |]. eapply IH; [| exact H]. apply (good_child _ _ I). now left.
Qed.
Lemma strip_not_cast : forall s e, strip_casts s = Ok e -> srt_is s SRT_CAST_EXPR = false -> e = s.
Proof. intros [t d p cs] e H N. destruct t; cbn [strip_casts] in H; try (injection H as <-; reflexivity). discriminate N. Qed.
Lemma dest_spec s st o st' : create_dest_reg s st = Ok (o, st') -> exists sf u, o = IMMC_OPERAND_REG sf (mkireg (g_next st + 1) u) /\ g_next st' = g_next st + 1.
Proof. unfold create_dest_reg, next_reg. intros H. apply bind_ok in H as (d & _ & H). cbv beta zeta in H. injection H as <- <-. eexists _, _. split; reflexivity. Qed.
Lemma update_spec dst st st' : update_non_void_expr_register dst st = Ok st' -> exists r, ope_reg dst = Some r /\ g_reg st' = Some r /\ g_next st' = g_next st.
Proof. unfold update_non_void_expr_register. intros H. apply bind_ok in H as (r & E & H). injection H as <-. apply deref_ok in E. exists r. auto. Qed.
Lemma fresh_next n c : writes c = Some (n + 1) -> fresh n c (n + 1) [n + 1].
Proof. intros W. right. auto. Qed.
Lemma fresh_none n c : writes c = None -> fresh n c n [].
Proof. intros W. left. auto. Qed.
(** the last instruction of an expression writes the next register *)
Lemma code_result n0 cs n1 A R c : code n0 cs n1 A R -> simple c -> writes c = Some (n1 + 1) -> incl (reads c) A -> incl R (reads c) -> code n0 (cs ++ [c]) (n1 + 1) [n1 + 1] [n1 + 1].
Proof.
  intros C S W A' R'. eapply code_weaken; [eapply code_inst; [exact C | exact S | now apply fresh_next | exact A' | exact R'] | | |].
  - intros r [<- | []]. now left.
  - intros r [].
  - apply incl_refl.
Qed.
Lemma code_effect n0 cs n1 A R c A' : code n0 cs n1 A R -> simple c -> writes c = None -> incl (reads c) A -> incl R (reads c) -> incl A' A -> code n0 (cs ++ [c]) n1 A' A'.
Proof.
  intros C S W A1 R1 I. eapply code_weaken; [eapply code_inst; [exact C | exact S | now apply fresh_none | exact A1 | exact R1] | exact I | intros r [] | apply incl_refl].
Qed.
Lemma code_strong n0 cs n1 A R : code n0 cs n1 A R -> incl R A -> code n0 cs n1 A A.
Proof. intros C I. eapply code_weaken; [exact C | apply incl_refl | exact I | apply incl_refl]. Qed.

Lemma code_bounds n0 cs n1 A R : code n0 cs n1 A R -> n0 <= n1 /\ forall r, In r A -> n0 < r <= n1.
Proof.
  induction 1; repeat match goal with H : _ /\ _ |- _ => destruct H end; repeat match goal with F : fresh _ _ _ _ |- _ => destruct F as [(_ & -> & ->) | (_ & -> & ->)] end;
    (split; [lia |]); intros r I; cbn [app] in I; rewrite ?in_app_iff in I; cbn [In] in I;
    repeat match goal with I : _ \/ _ |- _ => destruct I as [I | I] end; try contradiction; subst; try lia;
    match goal with I : In ?r ?A, B : forall r, In r ?A -> _ |- _ => apply B in I; lia | I : In ?r ?A', J : incl ?A' ?A, B : forall r, In r ?A -> _ |- _ => apply B, J, I end.
Qed.

Section Expr.
Variable gen : option dtype -> srt -> gst -> gres.
Hypothesis G : forall e st cs st', good e -> gen None e st = Ok (cs, st') -> expr_ok e st cs st'.

Ltac incls := cbn; intros ? ?; cbn in *; rewrite ?in_app_iff in *; cbn in *; intuition (subst; auto).
Definition int_ok (c : srt) (st : gst) (cs : list immc) (o : ope) (st' : gst) : Prop :=
  ((exists sf l, o = IMMC_OPERAND_INT sf l) \/ exists sf r, o = IMMC_OPERAND_REG sf r) /\ code (g_next st) cs (g_next st') (opr o) (opr o)
  /\ (srt_is c SRT_CAST_EXPR || srt_is c SRT_ILITERAL_EXPR || computed_last c = true -> forall sf r, o = IMMC_OPERAND_REG sf r -> reg_id r = g_next st').
Lemma ord_int s i st cs o st' c : good c -> gchild s i = Ok c -> gen_child_int gen s i st = Ok (cs, o, st') -> int_ok c st cs o st'.
Proof.
  unfold gen_child_int, next_reg, inst2. intros I E H. ginv H. rewrite E in M. injection M as <-. assert (I1 : good x1) by (eapply strip_good; eauto).
  destruct (srt_is x1 SRT_ILITERAL_EXPR) eqn:Lit.
  - ginv H. injection H as <- <- <-. split; [left; eexists _, _; reflexivity |]. split; [apply code_nil |]. intros _ sf r X. discriminate X.
  - ginv H. apply (G _ _ _ _ I1) in M. apply deref_ok in M2. destruct M as [(r & R & C & La) | (R & _)]; [| congruence].
    rewrite R in M2. injection M2 as <-. destruct x0 as [d |]; injection H as <- <- <-.
    + split; [right; eexists _, _; reflexivity |]. split.
      * cbn [g_next gset_next opr operand_register new_reg_immcope reg_id]. eapply code_result; [exact C | split; reflexivity | reflexivity | incls | incls].
      * intros _ sf q X. injection X as <- <-. reflexivity.
    + split; [right; eexists _, _; reflexivity |]. split; [exact C |]. intros Q sf q X. injection X as <- <-. apply La.
      assert (N : srt_is c SRT_CAST_EXPR = false). { destruct (srt_is c SRT_CAST_EXPR); [| reflexivity]. ginv M0. discriminate M0. }
      pose proof (strip_not_cast _ _ M1 N) as ->. rewrite N, Lit in Q. exact Q.
Qed.
Lemma ord_reg s i st cs o st' c : good c -> gchild s i = Ok c -> gen_child_reg gen s i st = Ok (cs, o, st') ->
  exists sf r, o = IMMC_OPERAND_REG sf r /\ code (g_next st) cs (g_next st') [reg_id r] [reg_id r] /\ (srt_is c SRT_CAST_EXPR || srt_is c SRT_ILITERAL_EXPR || computed_last c = true -> reg_id r = g_next st').
Proof.
  unfold gen_child_reg, next_reg, inst2. intros K E H. ginv H. apply (ord_int _ _ _ _ _ _ _ K E) in M as (O & C & La). destruct O as [(sf & v & ->) | (sf & r & ->)]; cbn [opr] in *.
  - injection H as <- <- <-. eexists _, _. split; [reflexivity |]. cbn [reg_id g_next gset_next]. split; [| reflexivity]. eapply code_result; [exact C | split; reflexivity | reflexivity | incls | incls].
  - injection H as <- <- <-. eexists _, _. split; [reflexivity |]. split; [exact C |]. intros Q. now apply (La Q sf).
Qed.
Lemma child_exists s i st cs o st' : gen_child_int gen s i st = Ok (cs, o, st') -> exists c, gchild s i = Ok c.
Proof. unfold gen_child_int. intros H. ginv H. eauto. Qed.
Lemma child_exists_reg s i st cs o st' : gen_child_reg gen s i st = Ok (cs, o, st') -> exists c, gchild s i = Ok c.
Proof. unfold gen_child_reg. intros H. ginv H. eapply child_exists; eauto. Qed.
Ltac kid := match goal with
  | M : gen_child_int gen ?s ?i ?st = Ok (_, _, _), K : good ?s |- _ => let c := fresh "c" in let E := fresh "E" in destruct (child_exists _ _ _ _ _ _ M) as (c & E); apply (ord_int _ _ _ _ _ _ _ (good_gchild _ _ _ K E) E) in M as (? & ? & ?)
  | M : gen_child_reg gen ?s ?i ?st = Ok (_, _, _), K : good ?s |- _ => let c := fresh "c" in let E := fresh "E" in destruct (child_exists_reg _ _ _ _ _ _ M) as (c & E); apply (ord_reg _ _ _ _ _ _ _ (good_gchild _ _ _ K E) E) in M as (? & ? & -> & ? & ?)
  | M : update_non_void_expr_register _ _ = Ok _ |- _ => apply update_spec in M as (? & ? & ? & ?)
  | M : create_dest_reg _ _ = Ok (_, _) |- _ => apply dest_spec in M as (? & ? & -> & ?)
  end.
Ltac known := repeat kid.
Ltac done_reg := cbn [ope_reg] in *; repeat match goal with H : Some _ = Some _ |- _ => injection H as <- || injection H as -> end.

Lemma pointer_child s c : good s -> In (srt_type s) [SRT_INDIR_EXPR; SRT_ASSIGN_EXPR; SRT_CALL_EXPR; SRT_PREINC_EXPR; SRT_PREDEC_EXPR; SRT_POSTINC_EXPR; SRT_POSTDEC_EXPR] -> gchild s 0 = Ok c ->
  computed_last c = true /\ exists t, ElabSpec.has c (DTYPE_POINTER t).
Proof.
  intros [H _] I E. apply everywhere_here in H as (NT & PL). split.
  - destruct s as [t d p cs]. unfold gchild in E. apply deref_ok in E. cbn [srt_children srt_type] in *. destruct cs as [| x cs]; [discriminate E |]. injection E as ->.
    cbn in I. repeat destruct I as [<- | I]; try (exact PL); contradiction.
  - unfold gchild in E. apply deref_ok in E. inversion NT; subst; cbn [node stmt_node srt_type srt_children nth_error] in *;
      try (exfalso; cbn in I; intuition discriminate); try (injection E as <-; eauto; fail).
    all: try (exfalso; match goal with J : In _ _ |- _ => cbn in I, J; intuition congruence end).
    + injection E as <-. exists d. reflexivity.
    + injection E as <-. exists d. reflexivity.
Qed.
Lemma pointer_ok s st cs o st' : good s -> In (srt_type s) [SRT_INDIR_EXPR; SRT_ASSIGN_EXPR; SRT_CALL_EXPR; SRT_PREINC_EXPR; SRT_PREDEC_EXPR; SRT_POSTINC_EXPR; SRT_POSTDEC_EXPR] ->
  gen_child_ptr gen s 0 st = Ok (cs, o, st') -> 
  code (g_next st) cs (g_next st') (opr o) (opr o) /\ (forall sf r, o <> IMMC_OPERAND_REG sf r) /\ match o with IMMC_OPERAND_PTR r => [reg_id r] | _ => [] end = opr o
  /\ (forall c v, gchild s 0 = Ok c -> srt_is c SRT_ADDR_EXPR = true -> gchild c 0 = Ok v -> srt_is v SRT_IDENT_EXPR = true -> st' = st).
Proof.
  intros K I H. assert (E : exists c, gchild s 0 = Ok c). { unfold gen_child_ptr in H. ginv H. eauto. } destruct E as (c & E). destruct (pointer_child _ _ K I E) as (La & t & T).
  unfold gen_child_ptr in H. ginv H. rewrite E in M. injection M as <-. assert (I' : good c) by (eapply good_gchild; eauto).
  destruct x0; ginv H; injection H as <- <- <-.
  - unfold ident_ope in M. ginv M. destruct (sy_kind x1); injection M as <-; (split; [apply code_nil | split; [discriminate | split; [reflexivity | reflexivity]]]).
  - apply (G _ _ _ _ I') in M as [(r & _ & C & L) | (_ & _ & V)]; [| unfold ElabSpec.has in *; congruence]. rewrite (L La) in C. split; [exact C | split; [discriminate | split; [reflexivity |]]].
    intros c' v E' A V W. rewrite E in E'. injection E' as <-. rewrite A in M0. rewrite V in M0. cbn in M0. rewrite W in M0. discriminate M0.
Qed.
Ltac ptr T := match goal with M : gen_child_ptr gen ?s 0 ?st = Ok (_, _, _), K : good ?s |- _ => apply (pointer_ok _ _ _ _ _ K T) in M as (? & ? & ? & ?) end.
Ltac nexts := repeat match goal with
  | H : g_next ?x = _, C : context[g_next ?x] |- _ => lazymatch type of C with code _ _ _ _ _ => rewrite H in C end
  | H : g_next ?x = _ |- context[g_next ?x] => rewrite H end.
Ltac incls' := unfold opr; let r := fresh "r" in intros r; cbn; rewrite ?in_app_iff; cbn; clear; tauto.

(** one register as the result *)
Lemma result_last e st cs st' r : g_reg st' = Some r -> reg_id r = g_next st' -> code (g_next st) cs (g_next st') [g_next st'] [g_next st'] -> expr_ok e st cs st'.
Proof. intros R E C. left. exists r. rewrite E. auto. Qed.
Ltac regs := cbn [ope_reg new_reg_immcope] in *; repeat match goal with H : Some ?x = Some ?y |- _ => first [is_var x; injection H as -> | is_var y; injection H as <-] end.
Ltac finish := regs; eapply result_last; [eassumption | cbn [reg_id]; congruence |]; repeat match goal with H : g_next ?x = _ |- context[g_next ?x] => rewrite H end.


Ltac start := match goal with H : ?f = Ok _ |- _ => ginv H; known; injection H as <- <-; regs end.
Ltac simples := split; reflexivity.
Lemma opr_int sf l : opr (IMMC_OPERAND_INT sf l) = [].
Proof. reflexivity. Qed.
Definition plain_inst (t : insttype) : Prop := ~ In t jumps /\ t <> IMMC_INST_LEAVE.
Lemma plain_simple t d f g : plain_inst t -> simple (IMMC_INST t d f g).
Proof. intros [N N']. split; destruct t; try reflexivity; try (exfalso; apply N; cbn; tauto); congruence. Qed.

Lemma ord_binary t s st cs st' : plain_inst t -> good s -> gen_binary_expr gen t s st = Ok (cs, st') -> expr_ok s st cs st'.
Proof.
  intros N K H. unfold gen_binary_expr in H. start. finish.
  rewrite app_assoc. eapply code_result; [eapply code_seq; eassumption | now apply plain_simple | reflexivity | incls' | incls'].
Qed.
Lemma ord_padd t s st cs st' : plain_inst t -> good s -> gen_pointer_additive_expr gen t s st = Ok (cs, st') -> expr_ok s st cs st'.
Proof.
  intros N K H. unfold gen_pointer_additive_expr in H. start. finish. rewrite app_assoc.
  match goal with A : code (g_next st) ?c1 ?n1 [reg_id ?f] _, B : code ?n1 ?c2 ?n2 [reg_id ?g] _ |- _ => assert (D : reg_id f <> reg_id g) by (apply code_bounds in A as [_ A]; apply code_bounds in B as [_ B]; specialize (A _ (or_introl eq_refl)); specialize (B _ (or_introl eq_refl)); lia);
    eapply code_weaken; [eapply (code_twice _ _ _ _ _ _ _ (reg_id g)); [eapply code_seq; [exact A | exact B] | simples | reflexivity | | | now apply plain_simple | now apply fresh_next | | |] | | |] end; cbn [app].
  - now right; left.
  - intros r [<- | []]. now right; left.
  - incls.
  - now right; left.
  - intros r [<- | [<- | []]]; cbn; auto.
  - intros r [<- | []]. now left.
  - intros r [].
  - apply incl_refl.
Qed.
Lemma ord_pdiff s st cs st' : good s -> gen_pointer_diff_expr gen s st = Ok (cs, st') -> expr_ok s st cs st'.
Proof.
  intros K H. unfold gen_pointer_diff_expr in H. start. finish. change (?a :: ?b :: nil) with ([a] ++ [b]). rewrite !app_assoc.
  eapply code_weaken; [eapply code_again; [eapply code_inst; [eapply code_seq; eassumption | simples | now apply fresh_next | |] | simples | reflexivity | | |] | | |].
  - incls.
  - incls.
  - now left.
  - intros r [<- | []]. now left.
  - intros r [].
  - intros r [<- | []]. now left.
  - apply incl_refl.
  - apply incl_refl.
Qed.
Lemma ord_tomember_address a s st cs st' : good s -> gen_tomember_address_expr gen a s st = Ok (cs, st') ->
  exists r, g_reg st' = Some r /\ reg_id r = g_next st' /\ code (g_next st) cs (g_next st') [g_next st'] [g_next st'].
Proof.
  intros K H. unfold gen_tomember_address_expr in H. start. eexists. split; [eassumption |]. split; [cbn [reg_id]; congruence |].
  repeat match goal with H : g_next ?x = _ |- context[g_next ?x] => rewrite H end.
  eapply code_result; [eassumption | simples | reflexivity | incls' | incls'].
Qed.
Lemma ident_reads st s o : ident_ope st s = Ok o -> opr o = [].
Proof. unfold ident_ope. intros H. ginv H. destruct (sy_kind x0); injection H as <-; reflexivity. Qed.
Lemma ord_address s st cs st' : good s -> srt_type s = SRT_ADDR_EXPR -> gen_address_expr gen s st = Ok (cs, st') -> expr_ok s st cs st'.
Proof.
  unfold gen_address_expr. intros K Ts H. ginv H. assert (I : good x) by (eapply good_gchild; eauto). destruct (srt_type x) eqn:T; try discriminate H.
  - unfold append_child in H. ginv H. assert (I0 : good x0) by (eapply good_gchild; eauto).
    assert (X : x = Srt SRT_INDIR_EXPR (srt_dtype x) (srt_payload x) [x0] /\ exists e, ElabSpec.has x0 (DTYPE_POINTER e)).
    { destruct I as [I _]. apply everywhere_here in I as (NT & _). unfold gchild in M0. apply deref_ok in M0. inversion NT; subst; cbn [node stmt_node srt_type srt_children nth_error srt_dtype srt_payload] in *; try discriminate T;
        try (exfalso; match goal with J : In _ _ |- _ => cbn in J; intuition congruence end). injection M0 as <-. split; [reflexivity | eauto]. }
    destruct X as (X & e & HP). apply (G _ _ _ _ I0) in H as [(r & R & C & La) | (_ & _ & V)]; [| unfold ElabSpec.has in *; congruence].
    left. exists r. split; [exact R |]. split; [exact C |]. intros Q. apply La.
    assert (Y : srt_children s = [x]).
    { destruct K as [K _]. apply everywhere_here in K as (NT & _). unfold gchild in M. apply deref_ok in M. inversion NT; subst s; cbn [node stmt_node srt_type srt_children nth_error srt_dtype srt_payload] in *; try discriminate Ts;
        try (exfalso; match goal with J : In _ _ |- _ => cbn in J; intuition congruence end); injection M as <-; reflexivity. }
    destruct s as [t d p ss]. cbn in Ts, Y. subst t ss. rewrite X in Q. exact Q.
  - apply (ord_tomember_address _ _ _ _ _ I) in H as (r & R & E & C). eapply result_last; eauto.
  - unfold gen_identifier_address_expr in H. start. finish. apply ident_reads in M0. apply (code_result _ [] _ [] []); [apply code_nil | simples | reflexivity | | intros ? []].
    unfold reads, inst2. fold (opr x0). rewrite M0. intros ? [].
  - unfold gen_string_address_expr in H. start. finish. apply (code_result _ [] _ [] []); [apply code_nil | simples | reflexivity | apply incl_refl | intros ? []].
Qed.
Lemma ord_indirection s st cs st' : good s -> srt_type s = SRT_INDIR_EXPR -> gen_indirection_expr gen s st = Ok (cs, st') -> expr_ok s st cs st'.
Proof.
  intros K T H. unfold gen_indirection_expr in H. assert (T' : In (srt_type s) [SRT_INDIR_EXPR; SRT_ASSIGN_EXPR; SRT_CALL_EXPR; SRT_PREINC_EXPR; SRT_PREDEC_EXPR; SRT_POSTINC_EXPR; SRT_POSTDEC_EXPR]) by (rewrite T; cbn; tauto).
  start. ptr T'. finish. eapply code_result; [eassumption | simples | reflexivity | incls' | incls'].
Qed.
Lemma ord_positive s st cs st' : good s -> srt_type s = SRT_POS_EXPR -> gen_positive_expr gen s st = Ok (cs, st') -> expr_ok s st cs st'.
Proof.
  intros K T H. unfold gen_positive_expr in H. start. left. eexists. split; [eassumption |]. split; [congruence |]. destruct s as [t d p ss]. cbn in T. subst t. discriminate.
Qed.
Lemma ord_neg_not t s st cs st' : plain_inst t -> good s -> gen_neg_not_expr gen t s st = Ok (cs, st') -> expr_ok s st cs st'.
Proof. intros N K H. unfold gen_neg_not_expr in H. start. finish. eapply code_result; [eassumption | now apply plain_simple | reflexivity | incls' | incls']. Qed.
Lemma ord_logical_not s st cs st' : good s -> gen_logical_not_expr gen s st = Ok (cs, st') -> expr_ok s st cs st'.
Proof. intros K H. unfold gen_logical_not_expr in H. start. finish. eapply code_result; [eassumption | simples | reflexivity | incls' | incls']. Qed.
Lemma ord_args p : good p -> forall n st cs st', gen_args gen p n st = Ok (cs, st') -> code (g_next st) cs (g_next st') [] [].
Proof.
  intros K. induction n as [| i IH]; intros st cs st' H; cbn in H; [injection H as <- <-; apply code_nil |].
  ginv H. apply IH in M0. known. injection H as <- <-. cbn [app]. change (?x :: ?l) with ([x] ++ l). rewrite app_assoc.
  eapply (code_seq _ _ _ [] [] _ _ [] []); [| exact M0]. eapply code_effect; [eassumption | simples | reflexivity | incls' | incls' | intros ? []].
Qed.

Lemma ord_call s st cs st' : good s -> srt_type s = SRT_CALL_EXPR -> gen_call_expr gen s st = Ok (cs, st') -> expr_ok s st cs st'.
Proof.
  intros K T H. unfold gen_call_expr in H. assert (T' : In (srt_type s) [SRT_INDIR_EXPR; SRT_ASSIGN_EXPR; SRT_CALL_EXPR; SRT_PREINC_EXPR; SRT_PREDEC_EXPR; SRT_POSTINC_EXPR; SRT_POSTDEC_EXPR]) by (rewrite T; cbn; tauto).
  apply bind_ok in H as (p & Ep & H). cbv zeta in H. ginv H. injection H as <- <-. assert (Kp : good p) by (eapply good_gchild; eauto). apply (ord_args _ Kp) in M. ptr T'.
  set (num := new_signed_int_immcope IMMC_SUFFIX_NONE IInt (Z.of_nat (length (srt_children p)))) in *.
  assert (C0 : code (g_next st) [IMMC_INST IMMC_INST_PREP None (Some num) None] (g_next st) [] []).
  { apply (code_effect _ [] _ [] [] _ []); [apply code_nil | simples | reflexivity | apply incl_refl | intros ? [] | intros ? []]. }
  pose proof (code_seq _ _ _ _ _ _ _ _ _ (code_seq _ _ _ _ _ _ _ _ _ C0 M) H) as C. cbn [app] in C.
  rewrite app_comm_cons, app_assoc. change (?a :: ?b :: nil) with ([a] ++ [b]). rewrite app_assoc. destruct (is_void x) eqn:V.
  - injection M2 as <- <-. injection M3 as <-. right. split; [reflexivity |]. cbn [update_void_expr_register gset_reg g_next]. split.
    + apply (code_effect _ _ _ [] [] _ []); [apply (code_effect _ _ _ _ _ _ [] C); [simples | reflexivity | incls' | incls' | intros ? []] | simples | reflexivity | apply incl_refl | intros ? [] | apply incl_refl].
    + destruct x; try discriminate V. unfold dty in M1. apply deref_ok in M1. exact M1.
  - ginv M2. known. injection M2 as <- <-. known. finish. eapply code_effect; [eapply code_inst; [exact C | simples | now apply fresh_next | incls' | incls'] | simples | reflexivity | intros ? [] | intros ? [] |].
    intros ? [<- | []]. now left.
Qed.
Lemma ord_tomember s st cs st' : good s -> gen_tomember_expr gen s st = Ok (cs, st') -> expr_ok s st cs st'.
Proof.
  intros K H. unfold gen_tomember_expr in H. ginv H. apply (ord_tomember_address _ _ _ _ _ K) in M0 as (r & R & E & C). known. injection H as <- <-. regs. apply deref_ok in M1. rewrite R in M1. injection M1 as <-. finish.
  rewrite <- E in C. eapply code_result; [rewrite <- E; exact C | simples | f_equal; cbn; congruence | incls' | incls'].
Qed.
Lemma incdec_int d sf v : incdec_value d sf = Ok v -> exists l, v = IMMC_OPERAND_INT sf l.
Proof.
  unfold incdec_value. intros H. destruct (dtype_issignedinteger d); [injection H as <-; eexists; reflexivity |]. destruct (dtype_isunsignedinteger d); [injection H as <-; eexists; reflexivity |].
  destruct d; try discriminate H. injection H as <-. eexists. reflexivity.
Qed.
Lemma store_reads o sf r : match o with IMMC_OPERAND_PTR r => [reg_id r] | _ => [] end = opr o -> reads (inst2 IMMC_INST_STORE o (IMMC_OPERAND_REG sf r)) = reg_id r :: opr o.
Proof. intros E. unfold inst2. cbn. now rewrite E. Qed.
Lemma store_writes t o f g : (forall sf r, o <> IMMC_OPERAND_REG sf r) -> writes (IMMC_INST t (Some o) f g) = None.
Proof. intros N. unfold writes. destruct o; try reflexivity. exfalso. eapply N. reflexivity. Qed.
(** the value at [ptr] in [d] is changed and stored back *)
Lemma code_update n0 cs n1 A t ptr sf d sf' l : code n0 cs n1 A [] -> plain_inst t -> In (reg_id d) A -> incl (opr ptr) A -> (forall sf r, ptr <> IMMC_OPERAND_REG sf r) ->
  match ptr with IMMC_OPERAND_PTR r => [reg_id r] | _ => [] end = opr ptr ->
  code n0 (cs ++ [inst3 t (IMMC_OPERAND_REG sf d) (IMMC_OPERAND_REG sf d) (IMMC_OPERAND_INT sf' l); inst2 IMMC_INST_STORE ptr (IMMC_OPERAND_REG sf d)]) n1 A [].
Proof.
  intros C P I J N E. change A with ([] ++ A) at 1. eapply (code_twice _ _ _ _ _ _ _ (reg_id d)); [exact C | now apply plain_simple | reflexivity | exact I | | simples | apply fresh_none; now apply store_writes | | | intros r []].
  - intros r [<- | []]. exact I.
  - rewrite (store_reads _ _ _ E). intros r [<- | K]; auto.
  - rewrite (store_reads _ _ _ E). now left.
Qed.
Lemma plain_add : plain_inst IMMC_INST_ADD.
Proof. split; [cbn; intuition discriminate | discriminate]. Qed.
Lemma plain_sub : plain_inst IMMC_INST_SUB.
Proof. split; [cbn; intuition discriminate | discriminate]. Qed.
Lemma ord_incdec s st cs st' : good s -> In (srt_type s) [SRT_PREINC_EXPR; SRT_PREDEC_EXPR; SRT_POSTINC_EXPR; SRT_POSTDEC_EXPR] -> gen_incdec_expr gen s st = Ok (cs, st') -> expr_ok s st cs st'.
Proof.
  intros K T H. unfold gen_incdec_expr in H. assert (T' : In (srt_type s) [SRT_INDIR_EXPR; SRT_ASSIGN_EXPR; SRT_CALL_EXPR; SRT_PREINC_EXPR; SRT_PREDEC_EXPR; SRT_POSTINC_EXPR; SRT_POSTDEC_EXPR]) by (cbn in *; tauto).
  ginv H. cbv zeta in H. ptr T'. known. apply incdec_int in M2 as (v & ->).
  match goal with C : code (g_next st) ?c ?n (opr ?o) (opr ?o), N : g_next _ = ?n + 1 |- _ => rename C into C0, N into N0;
    assert (C1 : forall sf u, code (g_next st) (c ++ [inst2 IMMC_INST_LOAD (IMMC_OPERAND_REG sf (mkireg (n + 1) u)) o]) (n + 1) ([n + 1] ++ opr o) [])
      by (intros sf u; eapply code_inst; [exact C0 | simples | now apply fresh_next | incls' | incls']) end.
  destruct (srt_type s); try discriminate H; ginv H; known; injection H as <- <-; finish.
  - change (?a :: ?b :: ?c :: nil) with ([a] ++ [b; c]). rewrite app_assoc.
    eapply code_weaken; [apply code_update; [apply C1 | exact plain_add | now left | apply incl_appr, incl_refl | assumption | assumption] | intros r [<- | []]; now left | intros r [] | apply incl_refl].
  - change (?a :: ?b :: ?c :: nil) with ([a] ++ [b; c]). rewrite app_assoc.
    eapply code_weaken; [apply code_update; [apply C1 | exact plain_sub | now left | apply incl_appr, incl_refl | assumption | assumption] | intros r [<- | []]; now left | intros r [] | apply incl_refl].
  - change (?a :: ?b :: ?c :: ?d :: nil) with ([a] ++ [b] ++ [c; d]). rewrite !app_assoc.
    eapply code_weaken; [apply code_update; [eapply code_inst; [apply C1 | simples | now apply fresh_next | | intros r []] | exact plain_add | now right; left | apply incl_appr, incl_appr, incl_refl | assumption | assumption] | intros r [<- | []]; now left | intros r [] | apply incl_refl].
    intros r [<- | []]. now left.
  - change (?a :: ?b :: ?c :: ?d :: nil) with ([a] ++ [b] ++ [c; d]). rewrite !app_assoc.
    eapply code_weaken; [apply code_update; [eapply code_inst; [apply C1 | simples | now apply fresh_next | | intros r []] | exact plain_sub | now right; left | apply incl_appr, incl_appr, incl_refl | assumption | assumption] | intros r [<- | []]; now left | intros r [] | apply incl_refl].
    intros r [<- | []]. now left.
Qed.
Lemma ord_primary s st cs st' : gen_primary_expr s st = Ok (cs, st') -> expr_ok s st cs st'.
Proof.
  intros H. unfold gen_primary_expr in H. start. finish. apply (code_result _ [] _ [] []); [apply code_nil | simples | reflexivity | | intros ? []].
  assert (E : opr x = []). { destruct (srt_type s); try discriminate M; [now apply ident_reads in M | |]; ginv M; injection M as <-; reflexivity. }
  unfold reads, inst2. fold (opr x). rewrite E. intros ? [].
Qed.
Lemma ord_assignment s st cs st' : good s -> srt_type s = SRT_ASSIGN_EXPR -> gen_assignment_expr gen s st = Ok (cs, st') -> expr_ok s st cs st'.
Proof.
  intros K T H. unfold gen_assignment_expr in H. assert (T' : In (srt_type s) [SRT_INDIR_EXPR; SRT_ASSIGN_EXPR; SRT_CALL_EXPR; SRT_PREINC_EXPR; SRT_PREDEC_EXPR; SRT_POSTINC_EXPR; SRT_POSTDEC_EXPR]) by (rewrite T; cbn; tauto).
  start. ptr T'. left. eexists. split; [eassumption |]. split.
  - rewrite app_assoc. repeat match goal with H : g_next ?x = _ |- context[g_next ?x] => rewrite H end.
    eapply code_effect; [eapply code_seq; eassumption | simples | now apply store_writes | rewrite store_reads by assumption; apply incl_refl | rewrite store_reads by assumption; apply incl_refl | intros r [<- | []]; now left].
  - intros Q. destruct s as [t d p ss]. cbn in T. subst t. destruct ss as [| a ss]; [discriminate E |]. destruct a as [ta da pa sa]. destruct ta; try discriminate Q. destruct sa as [| v [| w sa]]; try discriminate Q; destruct v as [tv dv pv sv]; destruct tv; try discriminate Q.
    destruct ss as [| y [| z ss]]; try discriminate Q. cbn in E. injection E as <-. cbn [computed_last] in Q.
    rewrite H4, (H6 _ _ eq_refl eq_refl eq_refl eq_refl). auto.
Qed.
Lemma cjmp_jump t b t' : get_cjmp_inst_type t b = Some t' -> In t' jumps /\ t' <> IMMC_INST_JMP.
Proof. intros H. destruct t, b; try discriminate H; injection H as <-; (split; [cbn; tauto | discriminate]). Qed.
Lemma jump_is t n f g : In t jumps -> t <> IMMC_INST_JMP -> jump_im n (IMMC_INST t (Some (new_label_immcope n)) f g).
Proof. intros I N. cbn in I. repeat destruct I as [<- | I]; first [contradiction | now destruct N | split; [reflexivity | split; reflexivity]]. Qed.
Lemma ord_jmp_cond s i t st cs j st' : (forall c, gchild s i = Ok c -> good c) -> gen_jmp_cond gen s i t st = Ok (cs, j, st') ->
  exists A, code (g_next st) cs (g_next st') A A /\ forall n, jump_im n (j (new_label_immcope n)) /\ incl (reads (j (new_label_immcope n))) A /\ incl A (reads (j (new_label_immcope n))).
Proof.
  unfold gen_jmp_cond. intros K H. ginv H. assert (Kx := K _ M). destruct (get_cjmp_inst_type (srt_type x) t) as [t' |] eqn:T.
  - apply cjmp_jump in T as [T T']. ginv H. known. injection H as <- <- <-. eexists. split; [eapply code_seq; eassumption |]. intros n. split; [now apply jump_is |]. split; incls'.
  - ginv H. apply (ord_reg _ _ _ _ _ _ _ Kx M) in M0 as (sf & r & -> & C & _). injection H as <- <- <-. eexists. split; [exact C |]. intros n. split; [apply jump_is; destruct t; cbn; (tauto || discriminate) |]. split; incls'.
Qed.
Lemma ord_append_jmp s i t l st cs st' : (forall c, gchild s i = Ok c -> good c) -> append_jmp gen s i t l st = Ok (cs, st') ->
  exists A c0 j, cs = c0 ++ [j] /\ code (g_next st) c0 (g_next st') A A /\ jump_im (create_label_name l) j /\ incl (reads j) A /\ incl A (reads j).
Proof.
  unfold append_jmp. intros K H. ginv H. injection H as <- <-. apply (ord_jmp_cond _ _ _ _ _ _ _ K) in M as (A & C & J). destruct (J (create_label_name l)) as (J1 & J2 & J3). eexists A, _, _. split; [reflexivity |]. auto.
Qed.
Lemma jmp_is l : jmp_im (create_label_name l) (jmp_to l).
Proof. repeat split. Qed.
Lemma label_is_im l : label_im (create_label_name l) (normal_label l).
Proof. eexists _, _. reflexivity. Qed.
Lemma ord_conditional s st cs st' : good s -> srt_type s = SRT_COND_EXPR -> gen_conditional_expr gen s st = Ok (cs, st') -> expr_ok s st cs st'.
Proof.
  unfold gen_conditional_expr, next_label. intros K T H. cbv zeta in H. ginv H. injection H as <- <-.
  apply (ord_append_jmp _ _ _ _ _ _ _ (fun c E => good_gchild _ _ _ K E)) in M as (A & c0 & j & -> & C0 & J1 & J2 & J3). known. regs. left. eexists. split; [eassumption |]. split.
  - cbn [g_next gset_label] in C0. rewrite <- app_assoc. cbn [reg_id].
    lazymatch goal with B : g_next g0 = g_next g + 1, D : g_next x = _, C1 : code (g_next g0) _ _ _ _, C2 : code _ _ (g_next g2) _ _ |- _ => rewrite D; rewrite B in C1;
      eapply (code_cond _ c0 (g_next g) A A j (create_label_name (g_label st + 1)) _ _ _ _ _ (jmp_to (g_label st + 1 + 1)) (create_label_name (g_label st + 1 + 1)) _ _ _ _ _ _ _ C0 J1 J2 J3 C1) end;
      [simples | reflexivity | apply incl_refl | apply incl_refl | apply jmp_is | apply label_is_im | eassumption | simples | reflexivity | apply incl_refl | apply incl_refl | apply label_is_im].
  - destruct s as [t d p ss]. cbn in T. subst t. discriminate.
Qed.
Lemma ord_logical or s st cs st' : good s -> gen_logical_expr gen or s st = Ok (cs, st') -> expr_ok s st cs st'.
Proof.
  unfold gen_logical_expr, next_label. intros K H. cbv zeta in H. ginv H. injection H as <- <-.
  apply (ord_append_jmp _ _ _ _ _ _ _ (fun c E => good_gchild _ _ _ K E)) in M as (A & c0 & j & -> & C0 & J1 & J2 & J3).
  apply (ord_append_jmp _ _ _ _ _ _ _ (fun c E => good_gchild _ _ _ K E)) in M0 as (A' & c1 & j' & -> & C0' & J1' & J2' & J3'). known. regs. finish.
  cbn [g_next gset_label] in C0. rewrite <- !app_assoc. cbn [app].
  apply (code_logical _ c0 (g_next g) A A j (create_label_name (g_label st + 1)) c1 _ A' A' j' _ (jmp_to (g_label st + 1 + 1)) (create_label_name (g_label st + 1 + 1)) _ _ _ C0 J1 J2 J3 C0' J1' J2' J3');
    [simples | reflexivity | reflexivity | apply jmp_is | apply label_is_im | simples | reflexivity | reflexivity | apply label_is_im].
Qed.
End Expr.

(** every expression *)
Lemma gen_expr_ok : forall f e st cs st', good e -> gen f None e st = Ok (cs, st') -> expr_ok e st cs st'.
Proof.
  induction f as [| f IH]; intros e st cs st' K H; [discriminate H |]. cbn [gen] in H. unfold gen_body in H.
  assert (P : forall t, In t [IMMC_INST_OR; IMMC_INST_XOR; IMMC_INST_AND; IMMC_INST_SETEQ; IMMC_INST_SETNEQ; IMMC_INST_SETLT; IMMC_INST_SETGT; IMMC_INST_SETLEQ; IMMC_INST_SETGEQ; IMMC_INST_SAL; IMMC_INST_SAR; IMMC_INST_ADD; IMMC_INST_SUB; IMMC_INST_MUL; IMMC_INST_DIV; IMMC_INST_MOD; IMMC_INST_NEG; IMMC_INST_NOT] -> plain_inst t).
  { intros t I. split; [| intros ->]; cbn in I; intuition (subst; try discriminate; match goal with J : In _ _ |- _ => cbn in J; intuition discriminate end). }
  destruct (srt_type e) eqn:T; try discriminate H; try (exfalso; destruct K as [_ K]; destruct e; cbn in K, T; rewrite T in K; discriminate K).
  all: lazymatch type of H with
    | gen_assignment_expr _ _ _ = _ => exact (ord_assignment _ IH _ _ _ _ K T H)
    | gen_conditional_expr _ _ _ = _ => exact (ord_conditional _ IH _ _ _ _ K T H)
    | gen_logical_expr _ _ _ _ = _ => exact (ord_logical _ IH _ _ _ _ _ K H)
    | gen_binary_expr _ _ _ _ = _ => refine (ord_binary _ IH _ _ _ _ _ (P _ _) K H); cbn; tauto
    | gen_pointer_additive_expr _ _ _ _ = _ => refine (ord_padd _ IH _ _ _ _ _ (P _ _) K H); cbn; tauto
    | gen_pointer_diff_expr _ _ _ = _ => exact (ord_pdiff _ IH _ _ _ _ K H)
    | gen_incdec_expr _ _ _ = _ => refine (ord_incdec _ IH _ _ _ _ K _ H); rewrite T; cbn; tauto
    | gen_address_expr _ _ _ = _ => exact (ord_address _ IH _ _ _ _ K T H)
    | gen_indirection_expr _ _ _ = _ => exact (ord_indirection _ IH _ _ _ _ K T H)
    | gen_positive_expr _ _ _ = _ => exact (ord_positive _ IH _ _ _ _ K T H)
    | gen_neg_not_expr _ _ _ _ = _ => refine (ord_neg_not _ IH _ _ _ _ _ (P _ _) K H); cbn; tauto
    | gen_logical_not_expr _ _ _ = _ => exact (ord_logical_not _ IH _ _ _ _ K H)
    | gen_call_expr _ _ _ = _ => exact (ord_call _ IH _ _ _ _ K T H)
    | gen_tomember_expr _ _ _ = _ => exact (ord_tomember _ IH _ _ _ _ K H)
    | gen_primary_expr _ _ = _ => exact (ord_primary _ _ _ _ H)
    end.
Qed.
