(** Proofs for C35 and C36: the shape of accepted programs *)
From Verif Require Import Base AstModel DtypeModel SymtabModel SrtModel TypeSpec ElabSpec ElabProofs ElabProofs2 ResolverSpec ResolverProofs GenSpec OrderProofs3.
Local Open Scope Z_scope.

Lemma value_exprs s v : value_of s v -> exprs s = true -> exprs v = true.
Proof. intros V H. unfold value_of in V. destruct (srt_dtype s) as [d |]; [destruct d |]; subst; try assumption; cbn; now rewrite H. Qed.
Lemma to_integer_exprs d s s' : to_integer d s s' -> exprs s = true -> exprs s' = true.
Proof. intros (d0 & r & u & _ & _ & [(_ & ->) | (_ & ->)]) S; [assumption |]. cbn. now rewrite S. Qed.
Lemma promoted_exprs s s' d : promoted s s' d -> exprs s = true -> exprs s' = true.
Proof. intros (d0 & r & u & _ & _ & _ & T). now apply to_integer_exprs with (1 := T). Qed.
Lemma balanced_exprs l r l' r' d : balanced_to l r l' r' d -> exprs l = true -> exprs r = true -> exprs l' = true /\ exprs r' = true.
Proof. intros (r1 & u1 & r2 & u2 & l1 & l2 & P1 & P2 & _ & T1 & T2) L R. split; [eapply to_integer_exprs; [exact T1 |] | eapply to_integer_exprs; [exact T2 |]]; eapply promoted_exprs; eassumption. Qed.
Lemma assigned_exprs d v v' : assigned_to d v v' -> exprs v = true -> exprs v' = true.
Proof. intros (d0 & _ & [(_ & ->) | (_ & ->)]) S; [assumption |]. cbn. now rewrite S. Qed.
Ltac efacts := repeat match goal with
  | V : value_of ?s ?v, S : exprs ?s = true |- _ => lazymatch goal with H : exprs v = true |- _ => fail | _ => pose proof (value_exprs _ _ V S) end
  | B : balanced_to ?l ?r ?l' ?r' ?d, S : exprs ?l = true, S' : exprs ?r = true |- _ => destruct (balanced_exprs _ _ _ _ _ B S S'); clear B
  | B : promoted ?l ?l' ?d, S : exprs ?l = true |- _ => pose proof (promoted_exprs _ _ _ B S); clear B
  | T : assigned_to ?d ?v ?v', S : exprs ?v = true |- _ => pose proof (assigned_exprs _ _ _ T S); clear T
  end.
Ltac erewrite_all := repeat match goal with H : exprs ?x = true |- context[exprs ?x] => rewrite H | H : forallb exprs ?x = true |- context[forallb exprs ?x] => rewrite H end.
Lemma elab_exprs : (forall E a s E', elab E a s E' -> exprs s = true) /\ (forall E ps args ss E', elab_arguments E ps args ss E' -> forallb exprs ss = true).
Proof.
  apply elab_mutind; intros; efacts; auto; try (cbn; erewrite_all; reflexivity).
  all: try (either; cbn; erewrite_all; reflexivity).
  all: try (match goal with H : In _ _ |- _ => ops H end; cbn; erewrite_all; reflexivity).
  all: match goal with H : _ \/ _ |- _ => destruct H as [H | H]; injection H as -> ->; cbn; erewrite_all; reflexivity end.
Qed.

(** statements, declarations and initialisers: expressions are where they are expected *)
Definition init_item (s : srt) : bool := srt_is s SRT_INIT || is_expr (srt_type s).
Fixpoint shaped (s : srt) : bool :=
  let 'Srt t _ _ cs := s in
  match t with
  | SRT_IF_STMT | SRT_WHILE_STMT | SRT_SWITCH_STMT => match cs with c :: r => exprs c && forallb shaped r | [] => true end
  | SRT_RET_STMT | SRT_EXPR_STMT => forallb exprs cs
  | SRT_INIT => forallb shaped cs && forallb init_item cs
  | SRT_CASE_STMT => match cs with _ :: r => forallb shaped r | [] => true end
  | _ => if is_expr t then is_expr t && forallb exprs cs else forallb shaped cs
  end.
Lemma exprs_shaped s : exprs s = true -> shaped s = true.
Proof. destruct s as [t d p cs]. cbn. intros H. destruct t; try discriminate H; exact H. Qed.
Lemma forallb_shaped l : forallb exprs l = true -> forallb shaped l = true.
Proof. rewrite !forallb_forall. auto using exprs_shaped. Qed.
Lemma exprs_item s : exprs s = true -> init_item s = true.
Proof. destruct s as [t d p cs]. cbn. intros H. apply andb_prop in H as [H _]. unfold init_item. cbn [srt_type]. rewrite H. apply orb_true_r. Qed.
Definition init_shaped (s : srt) : Prop := shaped s = true /\ init_item s = true.
Lemma init_shaped_node ss : Forall init_shaped ss -> init_shaped (init_node ss).
Proof.
  intros F. split; [| reflexivity]. cbn. apply andb_true_intro. rewrite !forallb_forall. rewrite Forall_forall in F. split; intros x I; apply (F x I).
Qed.
Lemma init_shaped_expr s : exprs s = true -> init_shaped s.
Proof. split; [now apply exprs_shaped | now apply exprs_item]. Qed.
Lemma zeroed_shaped tags : (forall d s, zeroed tags d s -> init_shaped s) /\ (forall ds ss, all_zeroed tags ds ss -> Forall init_shaped ss).
Proof.
  apply zeroed_mutind; intros; auto; apply init_shaped_node; auto; repeat constructor.
Qed.
Lemma initializer_shaped' : (forall E d a s E', initializer E d a s E' -> init_shaped s) /\ (forall all E es items ss rest E', fill all E es items ss rest E' -> Forall init_shaped ss).
Proof.
  apply initializer_mutind; intros; auto; try (apply init_shaped_node; auto).
  - pose proof (proj1 elab_exprs _ _ _ _ H1). efacts. constructor; [now apply init_shaped_expr | constructor].
  - repeat constructor.
  - eapply zeroed_shaped; eassumption.
  - constructor; [now apply init_shaped_node | assumption].
  - constructor; [| assumption]. apply init_shaped_node. repeat constructor.
Qed.
Lemma initializer_shaped E d a s E' : initializer E d a s E' -> shaped s = true.
Proof. intros H. apply (proj1 initializer_shaped' _ _ _ _ _ H). Qed.
Lemma declarators_shaped E td base l ss E' : init_declarators E td base l ss E' -> forallb shaped ss = true.
Proof. induction 1; cbn; auto. rewrite (initializer_shaped _ _ _ _ _ H4). auto. Qed.
Lemma declaration_shaped E a s E' : declaration_rule E a s E' -> shaped s = true.
Proof. destruct 1; [reflexivity |]. cbn. eapply declarators_shaped; eassumption. Qed.
Lemma tag_shaped s : tag_decl s = true -> shaped s = true.
Proof. intros T. destruct s as [t d p cs]. unfold tag_decl in T. destruct t; try discriminate. destruct d as [[] |]; try discriminate. destruct p; try discriminate. destruct cs; [reflexivity | discriminate]. Qed.
Lemma stmt_shaped C : (forall E a s E', stmt C E a s E' -> shaped s = true) /\ (forall E items cs E', block C E items cs E' -> forallb shaped cs = true).
Proof.
  apply (stmt_mutind (fun C E a s E' => shaped s = true) (fun C E items cs E' => forallb shaped cs = true)); clear C; intros C; intros;
    repeat match goal with H : elab _ _ _ _ |- _ => apply (proj1 elab_exprs) in H | H : declaration_rule _ _ _ _ |- _ => apply declaration_shaped in H | H : tag_decl _ = true |- _ => apply tag_shaped in H end; efacts;
    cbn; repeat match goal with H : _ = true |- _ => rewrite H end; auto.
Qed.
