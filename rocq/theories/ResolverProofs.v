(** Proofs for C23 - C27: consequences of the typing rules *)
From Verif Require Import Base AstModel DtypeModel SymtabModel SrtModel TypeSpec ElabSpec ResolverSpec.
Ltac splits := repeat match goal with |- _ /\ _ => split end.
Local Open Scope Z_scope.

Scheme elab_mind := Minimality for elab Sort Prop
  with elab_arguments_mind := Minimality for elab_arguments Sort Prop.
Combined Scheme elab_mutind from elab_mind, elab_arguments_mind.
Scheme initializer_mind := Minimality for initializer Sort Prop
  with fill_mind := Minimality for fill Sort Prop.
Combined Scheme initializer_mutind from initializer_mind, fill_mind.
Scheme zeroed_mind := Minimality for zeroed Sort Prop
  with all_zeroed_mind := Minimality for all_zeroed Sort Prop.
Combined Scheme zeroed_mutind from zeroed_mind, all_zeroed_mind.
Scheme stmt_mind := Minimality for stmt Sort Prop
  with block_mind := Minimality for block Sort Prop.
Combined Scheme stmt_mutind from stmt_mind, block_mind.

(** * Every node of a tree *)
Definition everywhere (P : srt -> Prop) (s : srt) : Prop := forall around x, occurs s around x -> P x.
Lemma everywhere_node (P : srt -> Prop) t d p cs : P (Srt t d p cs) -> Forall (everywhere P) cs -> everywhere P (Srt t d p cs).
Proof. intros H F around x O. inversion O; subst; [assumption |]. rewrite Forall_forall in F. eapply F; eassumption. Qed.
Lemma everywhere_here (P : srt -> Prop) s : everywhere P s -> P s.
Proof. intros H. apply (H [] s). constructor. Qed.

Definition jump_nodes : list srttype := [SRT_BREAK_STMT; SRT_CONTINUE_STMT; SRT_CASE_STMT; SRT_DEFAULT_STMT; SRT_SWITCH_STMT; SRT_FUNC_DEF].
(** the nodes that are not below a declaration, and those not below an expression or initialiser *)
Definition item_nodes : list srttype := jump_nodes ++ [SRT_WHILE_STMT; SRT_FOR_STMT; SRT_RET_STMT].
Definition statement_nodes : list srttype := item_nodes ++ [SRT_INIT_DECL].
Definition sound_item (x : srt) : Prop := node_typed x /\ (modifying x -> modifies_lvalue x) /\ ~ In (srt_type x) item_nodes.
Definition sound_node (x : srt) : Prop := node_typed x /\ (modifying x -> modifies_lvalue x) /\ ~ In (srt_type x) statement_nodes.
Lemma sound_plain (x : srt) : node_typed x -> ~ modifying x -> ~ In (srt_type x) statement_nodes -> sound_node x.
Proof. intros A B C. split; [assumption |]. split; [| assumption]. intros M. contradiction. Qed.
Ltac not_in := let H := fresh in intros H; cbn in H; repeat (destruct H as [H | H]; [discriminate H |]); destruct H.
Ltac plain := apply sound_plain; [| not_in | not_in].

Lemma value_type_integer d : integer d -> value_type d.
Proof. intros (r & u & P). left. left. inversion P; subst; [cbn; tauto |]. destruct r, u; cbn; tauto. Qed.
Lemma value_type_scalar d : scalar d -> value_type d.
Proof. intros [I | P]; [now apply value_type_integer | now right]. Qed.
Lemma promoted_type_integer d : promoted_type d -> integer d.
Proof. intros (r & u & ->). exists r, u. constructor. Qed.
Lemma same_type_refl d : same_type d d.
Proof. reflexivity. Qed.

Lemma value_everywhere s v : value_of s v -> everywhere sound_node s -> everywhere sound_node v.
Proof.
  intros V H. unfold value_of in V. destruct (srt_dtype s) as [d |] eqn:D; [destruct d |]; subst; try assumption; (apply everywhere_node; [plain | auto]).
  - eapply typed_array_address. exact D.
  - apply typed_address. exact D.
Qed.
Lemma to_integer_everywhere d s s' : promoted_type d -> to_integer d s s' -> everywhere sound_node s -> everywhere sound_node s' /\ has s' d.
Proof.
  intros P (d0 & r & u & H & Q & [(-> & ->) | (N & ->)]) S; [auto |]. split; [| reflexivity]. apply everywhere_node; [plain | auto].
  eapply typed_cast; [exact H |]. right. split; [apply value_type_integer; now apply promoted_type_integer |]. apply value_type_integer. now exists r, u.
Qed.
Lemma promoted_everywhere s s' d : promoted s s' d -> everywhere sound_node s -> everywhere sound_node s' /\ has s' d /\ promoted_type d.
Proof.
  intros (d0 & r & u & H & Q & -> & T) S. assert (P : promoted_type (integer_type r u)) by (exists r, u; reflexivity).
  destruct (to_integer_everywhere _ _ _ P T S). auto.
Qed.
Lemma common_promoted r1 u1 r2 u2 : promoted_type (common_type r1 u1 r2 u2).
Proof. destruct r1, u1, r2, u2; cbn; first [exists RInt, false; reflexivity | exists RInt, true; reflexivity | exists RLong, false; reflexivity | exists RLong, true; reflexivity | exists RLongLong, false; reflexivity | exists RLongLong, true; reflexivity]. Qed.
Lemma balanced_everywhere l r l' r' d : balanced_to l r l' r' d -> everywhere sound_node l -> everywhere sound_node r ->
  everywhere sound_node l' /\ everywhere sound_node r' /\ has l' d /\ has r' d /\ promoted_type d.
Proof.
  intros (r1 & u1 & r2 & u2 & l1 & l2 & P1 & P2 & -> & T1 & T2) L R. destruct (promoted_everywhere _ _ _ P1 L) as (S1 & _). destruct (promoted_everywhere _ _ _ P2 R) as (S2 & _).
  destruct (to_integer_everywhere _ _ _ (common_promoted _ _ _ _) T1 S1). destruct (to_integer_everywhere _ _ _ (common_promoted _ _ _ _) T2 S2). auto using common_promoted.
Qed.
Lemma assigned_everywhere d dv v v' : assignable d dv -> has v dv -> assigned_to d v v' -> everywhere sound_node v ->
  everywhere sound_node v' /\ (exists d', has v' d' /\ same_type d' d) /\ (value_type d \/ structure d).
Proof.
  intros A H (d0 & H0 & X) S. assert (E : d0 = dv) by congruence. subst d0.
  assert (K : value_type d \/ structure d). { destruct A as [(A & _) | [(a & b & -> & _) | (A & _)]]; [left; now left | left; right; eauto | now right]. }
  destruct X as [(T & ->) | (T & ->)]; [split; [assumption |]; eauto |]. split; [| split; [exists d; split; reflexivity | assumption]].
  apply everywhere_node; [plain | auto]. eapply typed_cast; [exact H |]. right.
  destruct A as [(A & B) | [(a & b & -> & -> & _) | (_ & _ & C)]].
  - split; now left.
  - split; right; eauto.
  - exfalso. apply T. now symmetry.
Qed.
Lemma ident_everywhere d n : everywhere sound_node (Srt SRT_IDENT_EXPR (Some d) (SPName n) []).
Proof. apply everywhere_node; [| constructor]. plain. constructor. Qed.
Lemma address_everywhere d l : has l d -> everywhere sound_node l -> everywhere sound_node (address d l).
Proof. intros H S. apply everywhere_node; [plain | auto]. now apply typed_address. Qed.

Ltac ops H := cbn in H; repeat (destruct H as [H | H]; [injection H as <- <- |]); [.. | contradiction].
Ltac int := match goal with H : exists d, has _ d /\ integer d |- _ => let d := fresh "di" in let X := fresh "Hi" in let Y := fresh "Ii" in destruct H as (d & X & Y) end.
Ltac either := match goal with H : _ /\ _ \/ _ /\ _ |- _ => destruct H as [(-> & ->) | (-> & ->)] end.
Ltac facts := repeat match goal with
  | V : value_of ?s ?v, S : everywhere sound_node ?s |- _ => lazymatch goal with H : everywhere sound_node v |- _ => fail | _ => pose proof (value_everywhere _ _ V S) end
  | B : balanced_to ?l ?r ?l' ?r' ?d, S : everywhere sound_node ?l, S' : everywhere sound_node ?r |- _ => destruct (balanced_everywhere _ _ _ _ _ B S S') as (? & ? & ? & ? & ?); clear B
  | B : promoted ?l ?l' ?d, S : everywhere sound_node ?l |- _ => destruct (promoted_everywhere _ _ _ B S) as (? & ? & ?); clear B
  | A : assignable ?d ?dv, H : has ?v ?dv, T : assigned_to ?d ?v ?v', S : everywhere sound_node ?v |- _ => destruct (assigned_everywhere _ _ _ _ A H T S) as (? & (? & ? & ?) & ?); clear T
  end.
Lemma elab_everywhere :
  (forall E a s E', elab E a s E' -> everywhere sound_node s) /\
  (forall E ps args ss E', elab_arguments E ps args ss E' -> Forall (everywhere sound_node) ss /\ Forall2 (fun p a => exists d, has a d /\ same_type d (snd p)) ps ss).
Proof.
  apply elab_mutind; intros; facts; auto.
  - apply ident_everywhere.
  - apply everywhere_node; [| constructor]. plain. constructor.
  - apply everywhere_node; [| constructor]. plain. constructor.
  - apply everywhere_node; [| constructor]. plain. constructor.
  - apply everywhere_node; [| constructor]. plain. constructor.
  - (* subscript *) int. apply everywhere_node; [plain; now apply typed_indirection |]. constructor; [| constructor]. apply everywhere_node.
    + plain. eapply typed_pointer_plus; eassumption.
    + either; auto.
  - (* call *) match goal with H : Forall _ _ /\ Forall2 _ _ _ |- _ => destruct H as (S1 & S2) end. apply everywhere_node; [plain; eapply typed_call; eassumption |]. constructor; [assumption |]. constructor; [| constructor].
    apply everywhere_node; [| assumption]. plain. apply typed_plain. cbn. tauto.
  - apply everywhere_node; [plain; eapply typed_member; try eassumption; reflexivity |]. constructor; [now apply address_everywhere |]. constructor; [apply ident_everywhere | constructor].
  - apply everywhere_node; [plain; eapply typed_member; eassumption |]. constructor; [assumption |]. constructor; [apply ident_everywhere | constructor].
  - apply everywhere_node; [| constructor; [now apply address_everywhere | constructor]]. split; [| split].
    + apply typed_incdec; auto. ops H; cbn; tauto.
    + intros _. exists d, l, []. auto.
    + ops H; not_in.
  - now apply address_everywhere.
  - apply everywhere_node; [plain; now apply typed_indirection | auto].
  - apply everywhere_node; [| auto]. apply sound_plain; [apply typed_sign; auto; ops H; cbn; tauto | ops H; not_in | ops H; not_in].
  - apply everywhere_node; [plain; eapply typed_not; eassumption | auto].
  - apply everywhere_node; [| constructor]. plain. constructor.
  - apply everywhere_node; [| constructor]. plain. constructor.
  - apply everywhere_node; [| auto]. plain. eapply typed_cast; [eassumption |]. match goal with H : _ = DTYPE_VOID \/ _ |- _ => destruct H as [-> | (A & B)] end; [now left | right; split; now apply value_type_scalar].
  - apply everywhere_node; [| auto]. apply sound_plain; [apply typed_binary; auto; ops H; cbn; tauto | ops H; not_in | ops H; not_in].
  - int. apply everywhere_node; [plain; eapply typed_pointer_plus; eassumption |]. either; auto.
  - int. apply everywhere_node; [plain; eapply typed_pointer_minus; eassumption | auto].
  - apply everywhere_node; [plain; eapply typed_pointer_difference; eassumption | auto].
  - apply everywhere_node; [| auto]. apply sound_plain; [eapply typed_compare; eauto; ops H; cbn; tauto | ops H; not_in | ops H; not_in].
  - apply everywhere_node; [| auto]. apply sound_plain; [eapply typed_compare_pointers; eauto; ops H; cbn; tauto | ops H; not_in | ops H; not_in].
  - apply everywhere_node; [| auto]. destruct H as [H | H]; injection H as -> ->; (apply sound_plain; [eapply typed_logical; eauto; cbn; tauto | not_in | not_in]).
  - apply everywhere_node; [plain; eapply typed_conditional; eassumption | auto].
  - apply everywhere_node; [plain; eapply typed_conditional_same; eassumption | auto].
  - apply everywhere_node; [| constructor; [now apply address_everywhere | auto]]. split; [| split; [| not_in]].
    + eapply typed_assign; eassumption.
    + intros _. eexists _, _, _. split; [reflexivity | assumption].
  - match goal with H : Forall _ _ /\ Forall2 _ _ _ |- _ => destruct H as (A & B) end. split; [constructor; auto |]. constructor; [cbn; eauto | assumption].
Qed.

(** * Initialisers *)
Lemma zero_everywhere : everywhere sound_node zero.
Proof. apply everywhere_node; [| constructor]. plain. apply typed_character. Qed.
Lemma init_everywhere ss : Forall (everywhere sound_node) ss -> everywhere sound_node (init_node ss).
Proof. intros H. apply everywhere_node; [| assumption]. plain. apply typed_plain. cbn. tauto. Qed.
Lemma cast_zero d : value_type d -> everywhere sound_node (node SRT_CAST_EXPR d [zero]).
Proof.
  intros V. apply everywhere_node; [| auto using zero_everywhere]. plain. eapply typed_cast; [reflexivity |]. right. split; [assumption |]. left. left. cbn. tauto.
Qed.
Lemma value_pointer t : value_type (DTYPE_POINTER t).
Proof. right. eauto. Qed.
Lemma value_char : value_type DTYPE_CHAR.
Proof. left. left. cbn. tauto. Qed.
Lemma zeroed_everywhere tags : (forall d s, zeroed tags d s -> everywhere sound_node s) /\ (forall ds ss, all_zeroed tags ds ss -> Forall (everywhere sound_node) ss).
Proof.
  apply zeroed_mutind; intros; auto using init_everywhere, zero_everywhere, cast_zero, value_pointer, value_char.
Qed.
Lemma string_everywhere n s : Z.of_nat (length s) = Z.max 0 n -> everywhere sound_node (Srt SRT_SLITERAL_EXPR (Some (DTYPE_ARRAY DTYPE_CHAR n)) (SPStr s) []).
Proof. intros H. apply everywhere_node; [| constructor]. plain. now apply typed_characters. Qed.
Lemma initializer_everywhere :
  (forall E d a s E', initializer E d a s E' -> everywhere sound_node s) /\ (forall all E es items ss rest E', fill all E es items ss rest E' -> Forall (everywhere sound_node) ss).
Proof.
  apply initializer_mutind; intros; auto using init_everywhere.
  - pose proof (proj1 elab_everywhere _ _ _ _ H1). facts. apply init_everywhere. auto.
  - destruct H2 as (L & _). apply init_everywhere. auto using string_everywhere.
  - eapply zeroed_everywhere. eassumption.
  - destruct H2 as (L & _). constructor; [| assumption]. apply init_everywhere. auto using string_everywhere.
Qed.
Lemma covers_zeroed tags : (forall d s, zeroed tags d s -> covers d s) /\ (forall ds ss, all_zeroed tags ds ss -> covers_all ds ss).
Proof.
  apply zeroed_mutind; intros; try (constructor; auto; fail).
  - eapply covers_scalar; [left; left; cbn; tauto | reflexivity | reflexivity].
  - eapply covers_scalar; [left; left; cbn; tauto | reflexivity | reflexivity].
  - eapply covers_scalar; [right; eauto | reflexivity | reflexivity].
  - eapply covers_aggregate; eassumption.
Qed.
Lemma initializer_covers :
  (forall E d a s E', initializer E d a s E' -> covers d s) /\ (forall all E es items ss rest E', fill all E es items ss rest E' -> covers_all es ss).
Proof.
  apply initializer_mutind; intros; try (constructor; auto; fail).
  - destruct H5 as (d0 & K & [(T & ->) | (T & ->)]).
    + eapply covers_scalar; [now apply value_type_scalar | exact K | assumption].
    + eapply covers_scalar; [now apply value_type_scalar | reflexivity | reflexivity].
  - apply covers_string. now destruct H2.
  - eapply covers_aggregate; eassumption.
  - eapply covers_zeroed; eassumption.
  - constructor; [| assumption]. eapply covers_aggregate; eassumption.
  - constructor; [| assumption]. apply covers_string. now destruct H2.
Qed.

(** * Declarations, statements and programs *)
Lemma list_plain_everywhere t d p cs : In t plain_nodes -> ~ In t statement_nodes -> Forall (everywhere sound_node) cs -> everywhere sound_node (Srt t d p cs).
Proof.
  intros T J F. apply everywhere_node; [| assumption]. split; [now apply typed_plain |]. split; [| assumption].
  intros M. exfalso. unfold modifying in M. cbn [srt_type] in M. clear - T M. cbn in T. repeat (destruct T as [<- | T]; [revert M; not_in |]). contradiction.
Qed.
Ltac plain_node := apply list_plain_everywhere; [cbn; tauto | not_in |].
Lemma sound_items s : everywhere sound_node s -> everywhere sound_item s.
Proof. intros H around x O. destruct (H around x O) as (A & B & C). split; [assumption |]. split; [assumption |]. intros I. apply C. unfold statement_nodes. apply in_app_iff. now left. Qed.
Lemma list_plain_items t d p cs : In t plain_nodes -> ~ In t item_nodes -> Forall (everywhere sound_item) cs -> everywhere sound_item (Srt t d p cs).
Proof.
  intros T J F. apply everywhere_node; [| assumption]. split; [now apply typed_plain |]. split; [| assumption].
  intros M. exfalso. unfold modifying in M. cbn [srt_type] in M. clear - T M. cbn in T. repeat (destruct T as [<- | T]; [revert M; not_in |]). contradiction.
Qed.
Ltac plain_item := apply list_plain_items; [cbn; tauto | not_in |].
Lemma declarators_everywhere E td base l ss E' : init_declarators E td base l ss E' -> Forall (everywhere sound_item) ss.
Proof.
  induction 1; constructor; auto; plain_item.
  - constructor; [| constructor]. plain_item. constructor.
  - constructor; [plain_item; constructor |]. constructor; [| constructor]. apply sound_items. eapply initializer_everywhere. eassumption.
Qed.
Lemma declaration_everywhere E a s E' : declaration_rule E a s E' -> everywhere sound_item s.
Proof. destruct 1; plain_item; [constructor |]. eapply declarators_everywhere; eassumption. Qed.

(** what holds of every node [x] of a statement, [around] being the nodes it is in *)
Definition placed_in (C : context) (around : list srt) (x : srt) : Prop :=
  node_typed x /\ (modifying x -> modifies_lvalue x) /\ distinct_labels x /\
  (srt_type x = SRT_BREAK_STMT -> in_loop C = true \/ in_switch C = true \/ among [SRT_WHILE_STMT; SRT_FOR_STMT; SRT_SWITCH_STMT] around) /\
  (srt_type x = SRT_CONTINUE_STMT -> in_loop C = true \/ among [SRT_WHILE_STMT; SRT_FOR_STMT] around) /\
  (srt_type x = SRT_CASE_STMT \/ srt_type x = SRT_DEFAULT_STMT -> in_switch C = true \/ among [SRT_SWITCH_STMT] around).
Lemma quietly_placed C around x : node_typed x -> (modifying x -> modifies_lvalue x) -> ~ In (srt_type x) jump_nodes -> placed_in C around x.
Proof.
  intros A B D. unfold placed_in, distinct_labels. split; [assumption |]. split; [assumption |].
  assert (X : forall t, srt_type x = t -> In t jump_nodes -> False) by (intros t E I; apply D; now rewrite E).
  split; [intros c b E; destruct (X _ E); cbn; tauto |].
  split; [intros E; destruct (X _ E); cbn; tauto |]. split; [intros E; destruct (X _ E); cbn; tauto |]. intros [E | E]; destruct (X _ E); cbn; tauto.
Qed.
Lemma item_placed C around x : sound_item x -> placed_in C around x.
Proof. intros (A & B & D). apply quietly_placed; [assumption | assumption |]. intros I. apply D. unfold item_nodes. apply in_app_iff. now left. Qed.
Lemma sound_placed C around x : sound_node x -> placed_in C around x.
Proof. intros (A & B & D). apply item_placed. split; [assumption |]. split; [assumption |]. intros I. apply D. unfold statement_nodes. apply in_app_iff. now left. Qed.
Definition well_formed (C : context) (s : srt) : Prop := forall around x, occurs s around x -> placed_in C around x.
Lemma item_formed C s : everywhere sound_item s -> well_formed C s.
Proof. intros H around x O. apply item_placed. eapply H. eassumption. Qed.
Lemma everywhere_formed C s : everywhere sound_node s -> well_formed C s.
Proof. intros H around x O. apply sound_placed. eapply H. eassumption. Qed.
(** a node is well formed in [C] if its children are, in the context the node makes *)
Lemma among_cons l s around : among l around -> among l (s :: around).
Proof. intros (x & I & T). exists x. split; [now right | assumption]. Qed.
Lemma among_here l s around : In (srt_type s) l -> among l (s :: around).
Proof. intros T. exists s. split; [now left | assumption]. Qed.
Definition inner (C : context) (t : srttype) : context :=
  match t with
  | SRT_WHILE_STMT | SRT_FOR_STMT => mkcontext true (in_switch C) (returns C)
  | SRT_SWITCH_STMT => mkcontext (in_loop C) true (returns C)
  | _ => C
  end.
Lemma formed_node C t d p cs : placed_in C [] (Srt t d p cs) -> Forall (fun c => well_formed C c \/ well_formed (inner C t) c) cs -> well_formed C (Srt t d p cs).
Proof.
  intros H F around x O. inversion O as [| ? c around' ? IN O']; subst; [assumption |]. rewrite Forall_forall in F.
  assert (X : placed_in C around' x \/ placed_in (inner C t) around' x) by (destruct (F _ IN) as [K | K]; [left | right]; eapply K; eassumption). clear F O'.
  set (s := Srt t d p cs) in *. destruct X as [(A & B & D & G & I & J) | (A & B & D & G & I & J)]; (split; [assumption |]; split; [assumption |]; split; [assumption |]).
  - split; [intros T; destruct (G T) as [? | [? | ?]]; auto using among_cons |]. split; [intros T; destruct (I T); auto using among_cons | intros T; destruct (J T); auto using among_cons].
  - assert (L : in_loop (inner C t) = true -> in_loop C = true \/ In t [SRT_WHILE_STMT; SRT_FOR_STMT]) by (destruct t; cbn; tauto).
    assert (S : in_switch (inner C t) = true -> in_switch C = true \/ In t [SRT_SWITCH_STMT]) by (destruct t; cbn; tauto).
    split; [| split].
    + intros T. destruct (G T) as [X | [X | X]]; auto using among_cons.
      * destruct (L X) as [Y | Y]; [auto |]. right. right. apply among_here. cbn in *. tauto.
      * destruct (S X) as [Y | Y]; [auto |]. right. right. apply among_here. cbn in *. tauto.
    + intros T. destruct (I T) as [X | X]; auto using among_cons. destruct (L X) as [Y | Y]; [auto |]. right. now apply among_here.
    + intros T. destruct (J T) as [X | X]; auto using among_cons. destruct (S X) as [Y | Y]; [auto |]. right. now apply among_here.
Qed.
Definition quiet_node (t : srttype) : Prop := ~ In t jump_nodes /\ ~ In t [SRT_ASSIGN_EXPR; SRT_PREINC_EXPR; SRT_PREDEC_EXPR; SRT_POSTINC_EXPR; SRT_POSTDEC_EXPR].
Lemma quiet_placed C t d p cs : node_typed (Srt t d p cs) -> quiet_node t -> placed_in C [] (Srt t d p cs).
Proof. intros T (A & B). apply quietly_placed; [assumption | | assumption]. intros M. contradiction. Qed.
Ltac quiet_node := split; not_in.

Lemma tag_formed C s : tag_decl s = true -> well_formed C s.
Proof.
  intros T. destruct s as [t d p cs]. unfold tag_decl in T. destruct t; try discriminate. destruct d as [[] |]; try discriminate. destruct p; try discriminate. destruct cs; [| discriminate].
  apply formed_node; [| constructor]. apply quiet_placed; [apply typed_plain; cbn; tauto | quiet_node].
Qed.
Ltac formed := repeat match goal with
  | H : elab _ _ ?s _ |- _ => pose proof (proj1 elab_everywhere _ _ _ _ H); clear H
  end; facts.
Ltac children := repeat first [apply Forall_nil | apply Forall_cons]; try (left; assumption); try (right; assumption); try (left; now apply everywhere_formed).
Lemma stmt_formed C :
  (forall E a s E', stmt C E a s E' -> well_formed C s) /\ (forall E items cs E', block C E items cs E' -> Forall (well_formed C) cs).
Proof.
  apply (stmt_mutind (fun C E a s E' => well_formed C s) (fun C E items cs E' => Forall (well_formed C) cs)); clear C; intros C; intros; formed.
  - apply formed_node; [apply quiet_placed; [apply typed_plain; cbn; tauto | quiet_node] |]. eapply Forall_impl; [| eassumption]. auto.
  - (* case *) apply formed_node; [| children]. split; [eapply typed_case; eassumption |]. split; [not_in |]. split; [intros ? ? X; discriminate |]. split; [discriminate |]. split; [discriminate |]. auto.
  - (* default *) apply formed_node; [| children]. split; [apply typed_plain; cbn; tauto |]. split; [not_in |]. split; [intros ? ? X; discriminate |]. split; [discriminate |]. split; [discriminate |]. auto.
  - (* continue *) apply formed_node; [| children]. split; [apply typed_plain; cbn; tauto |]. split; [not_in |]. split; [intros ? ? X; discriminate |]. split; [discriminate |]. split; [auto |]. intros [X | X]; discriminate.
  - (* break *) apply formed_node; [| children]. split; [apply typed_plain; cbn; tauto |]. split; [not_in |]. split; [intros ? ? X; discriminate |]. split; [tauto |]. split; [discriminate |]. intros [X | X]; discriminate.
  - apply formed_node; [| children]. apply quiet_placed; [apply (typed_return None); discriminate | quiet_node].
  - apply formed_node; [| children]. apply quiet_placed; [| quiet_node]. apply (typed_return (Some v')). intros w X. injection X as <-. eauto.
  - apply formed_node; [| children]. apply quiet_placed; [apply typed_plain; cbn; tauto | quiet_node].
  - apply formed_node; [| children]. apply quiet_placed; [apply typed_plain; cbn; tauto | quiet_node].
  - apply formed_node; [| children]. apply quiet_placed; [eapply typed_if; eassumption | quiet_node].
  - apply formed_node; [| children]. apply quiet_placed; [eapply typed_if; eassumption | quiet_node].
  - (* switch *) apply formed_node; [| children]. split; [eapply typed_switch; eassumption |]. split; [not_in |]. split; [intros ? ? X Y; injection Y as <- <-; auto |]. split; [discriminate |]. split; [discriminate |].
    intros [X | X]; discriminate.
  - apply formed_node; [| children]. apply quiet_placed; [eapply typed_while; eassumption | quiet_node].
  - (* for *) apply formed_node; [apply quiet_placed; [apply typed_plain; cbn; tauto | quiet_node] | children].
  - apply formed_node; [apply quiet_placed; [apply typed_plain; cbn; tauto | quiet_node] | children]. left. apply item_formed. eapply declaration_everywhere; eassumption.
  - constructor.
  - constructor; [now apply tag_formed | assumption].
  - constructor; [apply item_formed; eapply declaration_everywhere; eassumption | assumption].
  - constructor; assumption.
Qed.
Definition outermost : context := mkcontext false false None.
Lemma formed_returns r C s : well_formed (mkcontext (in_loop C) (in_switch C) r) s -> well_formed C s.
Proof. intros H around x O. exact (H around x O). Qed.
Lemma function_formed E a s E' : function_definition E a s E' -> well_formed outermost s.
Proof.
  destruct 1 as [E t p ts q specs da tb qb items cs base E1 n ps ret E2 syms1 syms2 syms3 body E3 syms4 E4 SP D1 D2 D3 D4 D5 D6 B D7 D8].
  pose proof (proj2 (stmt_formed (mkcontext false false (Some ret))) _ _ _ _ B) as F.
  apply formed_node.
  { split; [apply typed_plain; cbn; tauto |]. split; [not_in |]. split; [intros ? ? X; discriminate |]. split; [discriminate |]. split; [discriminate |]. intros [X | X]; discriminate. }
  apply Forall_cons; [| apply Forall_cons; [| apply Forall_nil]]; left.
  - apply everywhere_formed. plain_node. constructor.
  - apply (formed_returns (Some ret)). apply formed_node; [apply quiet_placed; [apply typed_plain; cbn; tauto | quiet_node] |]. eapply Forall_impl; [| exact F]. auto.
Qed.
Lemma string_decl_everywhere s : string_decl s = true -> everywhere sound_item s.
Proof.
  intros H. destruct s as [t d p cs]. unfold string_decl in H. destruct (string_of (Srt t d p cs)) as [[id str] |] eqn:S; [clear H | discriminate]. unfold string_of in S.
  repeat match type of S with (match ?x with _ => _ end) = Some _ => destruct x eqn:?; try discriminate end.
  match goal with H : (_ && _)%bool = true |- _ => apply andb_prop in H as [H1 H2] end. apply Z.eqb_eq in H1, H2. subst.
  plain_item. constructor; [| constructor]. plain_item. constructor; [plain_item; constructor |]. constructor; [| constructor]. plain_item. constructor; [| constructor]. apply sound_items, string_everywhere. lia.
Qed.
Lemma unit_formed E items cs E' : unit_items E items cs E' -> Forall (well_formed outermost) cs.
Proof.
  induction 1; constructor; auto.
  - destruct H; [now apply tag_formed | apply item_formed; now apply string_decl_everywhere].
  - eapply function_formed; eassumption.
  - apply item_formed. eapply declaration_everywhere; eassumption.
Qed.
Lemma program_formed a s : program a s -> well_formed outermost s.
Proof.
  intros (cs & E' & -> & U & _). apply formed_node; [apply quiet_placed; [apply typed_plain; cbn; tauto | quiet_node] |]. eapply Forall_impl; [| eapply unit_formed; exact U]. auto.
Qed.
Theorem program_typed a s around x : program a s -> occurs s around x -> node_typed x.
Proof. intros P O. apply (program_formed _ _ P around x O). Qed.
Theorem program_modifies a s around x : program a s -> occurs s around x -> modifying x -> modifies_lvalue x.
Proof. intros P O. apply (program_formed _ _ P around x O). Qed.
Theorem program_jumps a s around x : program a s -> occurs s around x -> well_placed around x /\ distinct_labels x.
Proof.
  intros P O. destruct (program_formed _ _ P around x O) as (_ & _ & D & B & C & L). split; [| assumption]. split; [| split].
  - intros T. destruct (B T) as [X | [X | X]]; [discriminate | discriminate | assumption].
  - intros T. destruct (C T) as [X | X]; [discriminate | assumption].
  - intros T. destruct (L T) as [X | X]; [discriminate | assumption].
Qed.

(** * C26 *)
Lemma effects_node t d p cs : effects (Srt t d p cs) = ((if in_dec srttype_eq_dec t effect_nodes then 1 else 0) + list_sum (List.map effects cs))%nat.
Proof. reflexivity. Qed.
Lemma value_effects s v : value_of s v -> effects v = effects s.
Proof. intros V. unfold value_of in V. destruct (srt_dtype s) as [d |]; [destruct d |]; subst; try reflexivity; unfold node; rewrite effects_node; cbn [List.map list_sum fold_right]; cbn; lia. Qed.
Lemma cast_effects d s : effects (node SRT_CAST_EXPR d [s]) = effects s.
Proof. unfold node. rewrite effects_node. cbn. lia. Qed.
Lemma to_integer_effects d s s' : to_integer d s s' -> effects s' = effects s.
Proof. intros (d0 & r & u & _ & _ & [(_ & ->) | (_ & ->)]); auto using cast_effects. Qed.
Lemma promoted_effects s s' d : promoted s s' d -> effects s' = effects s.
Proof. intros (d0 & r & u & _ & _ & _ & T). eapply to_integer_effects; eassumption. Qed.
Lemma balanced_effects l r l' r' d : balanced_to l r l' r' d -> effects l' = effects l /\ effects r' = effects r.
Proof.
  intros (r1 & u1 & r2 & u2 & l1 & l2 & P1 & P2 & _ & T1 & T2). apply promoted_effects in P1, P2. apply to_integer_effects in T1, T2. split; congruence.
Qed.
Lemma assigned_effects d s s' : assigned_to d s s' -> effects s' = effects s.
Proof. intros (d0 & _ & [(_ & ->) | (_ & ->)]); auto using cast_effects. Qed.
Ltac conv := repeat match goal with
  | V : value_of _ _ |- _ => apply value_effects in V
  | V : promoted _ _ _ |- _ => apply promoted_effects in V
  | V : balanced_to _ _ _ _ _ |- _ => apply balanced_effects in V as [? ?]
  | V : assigned_to _ _ _ |- _ => apply assigned_effects in V
  end.
Ltac count := unfold address, node; rewrite ?effects_node; cbn [List.map list_sum fold_right]; rewrite ?effects_node; cbn [List.map list_sum fold_right];
  repeat match goal with |- context [in_dec srttype_eq_dec ?t effect_nodes] => let b := eval vm_compute in (if in_dec srttype_eq_dec t effect_nodes then 1%nat else 0%nat) in
    replace (if in_dec srttype_eq_dec t effect_nodes then 1%nat else 0%nat) with b by (vm_compute; reflexivity) end.
Lemma elab_effects :
  (forall E a s E', elab E a s E' -> pure_targets a -> effects s = effects_of_source a) /\
  (forall E ps args ss E', elab_arguments E ps args ss E' -> fold_right and True (List.map pure_targets args) ->
     list_sum (List.map effects ss) = list_sum (List.map effects_of_source args)).
Proof.
  apply elab_mutind; intros; conv; try (count; reflexivity).
  all: try match goal with H : In (_, _) integer_operators |- _ => ops H end.
  all: try match goal with H : In (_, _) comparison_operators |- _ => ops H end.
  all: try match goal with H : In (_, _) incdec_operators |- _ => ops H end.
  all: try match goal with H : In (_, _) unary_operators |- _ => ops H end.
  all: try match goal with H : In (_, _) compound_operators |- _ => ops H end.
  all: try match goal with H : (_, _) = _ \/ _ |- _ => destruct H as [H | H]; injection H as -> -> end.
  all: cbn [pure_targets operands firstn List.map fold_right] in *.
  all: try match goal with H : _ /\ _ |- _ => idtac end.
  all: cbn [effects_of_source operands firstn List.map list_sum fold_right]; try match goal with |- context [in_dec asttype_eq_dec ?t effect_operators] =>
       let b := eval vm_compute in (if in_dec asttype_eq_dec t effect_operators then 1%nat else 0%nat) in
       replace (if in_dec asttype_eq_dec t effect_operators then 1%nat else 0%nat) with b by (vm_compute; reflexivity) end.
  all: try match goal with H : _ /\ _ \/ _ /\ _ |- _ => destruct H as [(-> & ->) | (-> & ->)] end.
  all: try (count; intuition (try lia); fail).
  11: { destruct H7 as (X & Y). apply H6 in Y. apply H0 in X. unfold list_sum in Y. congruence. }
  all: match goal with H : (_ -> _) /\ _ |- _ => destruct H as (X & Y & Y' & _) end.
  all: assert (Z : effects_of_source a = 0%nat) by (apply X; cbn; tauto).
  all: match goal with H : _ -> effects _ = _ |- _ => rewrite H by (repeat split; auto) end.
  all: cbn [effects_of_source operands firstn List.map list_sum fold_right];
       repeat match goal with |- context [in_dec asttype_eq_dec ?t effect_operators] =>
         let b := eval vm_compute in (if in_dec asttype_eq_dec t effect_operators then 1%nat else 0%nat) in
         replace (if in_dec asttype_eq_dec t effect_operators then 1%nat else 0%nat) with b by (vm_compute; reflexivity) end; lia.
Qed.

(** * C27: lists without inner braces *)
Lemma zeroed_scalars tags : (forall d s, zeroed tags d s -> Forall is_zero (scalars s)) /\ (forall ds ss, all_zeroed tags ds ss -> Forall is_zero (flat_map scalars ss)).
Proof.
  apply zeroed_mutind; intros; cbn; auto.
  - constructor; [now left | constructor].
  - constructor; [right; eexists; reflexivity | constructor].
  - constructor; [right; eexists; reflexivity | constructor].
  - apply Forall_app. auto.
Qed.
Lemma assigned_scalars d v v' : assigned_to d v v' -> scalars v' = [v'].
Proof.
  intros (d0 & H & [(_ & ->) | (_ & ->)]); [| reflexivity]. destruct v as [t o p cs]. unfold has in H. cbn in H. subst o. now destruct t.
Qed.
Lemma scalar_not_aggregate d : scalar d -> ~ aggregate d.
Proof. intros [(r & u & P) | (t & ->)] [(e & n & E) | S]; try discriminate; try exact S; subst; inversion P; subst; try (destruct r, u; discriminate); cbn in S; try contradiction; destruct r, u; cbn in S; contradiction. Qed.
Lemma fill_flat all E es items ss rest E' : fill all E es items ss rest E' -> Forall expression_item items ->
  exists used vs zs, items = used ++ rest /\ flat_map scalars ss = vs ++ zs /\ Forall2 value_for used vs /\ Forall is_zero zs /\ (zs <> [] -> rest = []).
Proof.
  induction 1 as [all E items | all E es zs Z | all E e es c items x E1 ss rest E2 B I F IH | all E e es c items es' xs rest1 E1 ss rest E2 A B EL F1 IH1 F2 IH2
    | all E n es p cs str str' ss rest E1 AL P L PD F IH]; intros X.
  - exists [], [], []. cbn. splits; [reflexivity | reflexivity | exact (Forall2_nil _) | exact (Forall_nil _) | now intros Q].
  - exists [], [], (flat_map scalars zs). cbn. splits; [reflexivity | reflexivity | exact (Forall2_nil _) | | reflexivity]. eapply zeroed_scalars; eassumption.
  - inversion X as [| ? ? (X1 & X2) X3]; subst. destruct (IH X3) as (used & vs & zs & -> & H2 & H3 & H4 & H5).
    inversion I as [? d ? e0 s v v' dv ? SC EB EL V HV AS AT | ? n ? p cs str str' SE | ? d p its es' ss' ? EL FL]; subst.
    + destruct EB as [(_ & ->) | (q & ->)]; [| now destruct X1]. exists (c :: used), (v' :: vs), zs. cbn [flat_map init_node scalars]. rewrite H2. cbn [flat_map].
      rewrite (assigned_scalars _ _ _ AT). splits; auto. constructor; [| assumption]. exists E, s, v, e, E1. auto.
    + destruct SE as [-> | (q & ->)]; [now destruct X2 | now destruct X1].
    + now destruct X1.
  - destruct (IH1 X) as (used1 & vs1 & zs1 & U1 & S1 & V1 & Z1 & N1).
    assert (X2 : Forall expression_item rest1) by (rewrite U1 in X; apply Forall_app in X; tauto). destruct (IH2 X2) as (used2 & vs2 & zs2 & U2 & S2 & V2 & Z2 & N2).
    cbn [flat_map init_node scalars]. rewrite S1, S2. destruct zs1 as [| z zs1].
    + exists (used1 ++ used2), (vs1 ++ vs2), zs2. rewrite U1, U2, <- ?app_assoc, ?app_nil_r. cbn. splits; auto using Forall2_app.
    + rewrite (N1 ltac:(discriminate)) in *. symmetry in U2. apply app_eq_nil in U2 as (-> & ->). inversion V2; subst. exists used1, vs1, ((z :: zs1) ++ zs2).
      rewrite U1, app_nil_r, <- !app_assoc. cbn. splits; auto. change (z :: zs1 ++ zs2) with ((z :: zs1) ++ zs2). apply Forall_app. auto.
  - subst all p. inversion X as [| ? ? (X1 & X2) X3]; subst. now destruct X2.
Qed.
Theorem flat_initializer E d p items s E' : initializer E d (Ast AST_INIT_LIST p items) s E' -> Forall expression_item items ->
  exists vs zs, scalars s = vs ++ zs /\ Forall2 value_for items vs /\ Forall is_zero zs.
Proof.
  intros I X. inversion I as [? ? ? e0 s0 v v' dv ? SC EB EL V HV AS AT | ? n ? q cs str str' SE | ? ? q its es' ss' ? EL FL]; subst.
  - destruct EB as [(B & _) | (q & Q)]; [now destruct B |]. injection Q as -> ->. exists [v'], []. cbn [flat_map init_node scalars]. rewrite (assigned_scalars _ _ _ AT).
    splits; auto. constructor; [| constructor]. exists E, s0, v, d, E'. auto.
  - destruct SE as [Q | (q' & Q)]; [discriminate |]. injection Q as -> ->. inversion X as [| ? ? (X1 & X2) X3]; subst. now destruct X2.
  - destruct (fill_flat _ _ _ _ _ _ _ FL X) as (used & vs & zs & U & S & V & Z & _). rewrite app_nil_r in U. subst used. eauto 6.
Qed.
(** every declared object that has an initialiser *)
Lemma nodes_occur : forall s x, In x (nodes s) <-> exists around, occurs s around x.
Proof.
  fix IH 1. intros [t d p cs] x. cbn [nodes]. split.
  - intros [<- | H]; [exists []; constructor |]. apply in_flat_map in H as (c & C & H).
    assert (Q : exists around, occurs c around x). { revert H. revert c C. induction cs as [| c' cs IHc]; intros c C; [destruct C |]. destruct C as [<- | C]; [apply IH | apply (IHc c C)]. }
    destruct Q as (around & O). exists (Srt t d p cs :: around). now apply occurs_below with c.
  - intros (around & O). inversion O as [| ? c around' ? C O']; subst; [now left |]. right. apply in_flat_map. exists c. split; [exact C |].
    assert (Q : exists around, occurs c around x) by eauto. revert Q. cbn in C. clear O O'. revert C. induction cs as [| c' cs IHc]; intros C; [destruct C |]. destruct C as [<- | C]; [apply IH | apply (IHc C)].
Qed.
