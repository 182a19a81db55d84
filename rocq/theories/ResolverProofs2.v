(** Proofs for C26 and C27 about accepted programs: where the initialisers and returned values of the typed tree come from *)
From Verif Require Import Base AstModel DtypeModel SymtabModel SrtModel ResolverModel TypeSpec ElabSpec ElabProofs ElabProofs2 ElabProofs5 ResolverSpec ResolverProofs.
Local Open Scope Z_scope.

Section Origin.
Variable top : list ast.
(** the initialiser or returned value at [x] is what the rules make of one in the source *)
Definition has_origin (x : srt) : Prop :=
  (forall d n i, x = Srt SRT_INIT_DECL None SPNone [Srt SRT_IDENT_DECL (Some d) (SPName n) []; i] -> exists ia E E', In ia top /\ initializer E d ia i E')
  /\ (forall v, x = stmt_node SRT_RET_STMT [v] -> exists a p cs E c w E' r, In (Ast AST_RET_STMT p (a :: cs)) top /\ elab E a c E' /\ value_of c w /\ assigned_to r w v).
Lemma origin_other t d p cs : t <> SRT_INIT_DECL -> t <> SRT_RET_STMT -> Forall (everywhere has_origin) cs -> everywhere has_origin (Srt t d p cs).
Proof. intros A B F. apply everywhere_node; [| exact F]. split; [intros ? ? ? X | intros ? X]; injection X as X _; contradiction. Qed.
Lemma origin_sound s : everywhere sound_node s -> everywhere has_origin s.
Proof. intros H around x O. destruct (H around x O) as (_ & _ & N). split; intros; subst x; exfalso; apply N; cbn; tauto. Qed.
Ltac other := apply origin_other; [discriminate | discriminate |].

Definition within (a : ast) : Prop := incl (ast_nodes a) top.
Lemma within_child t p cs c : within (Ast t p cs) -> In c cs -> within c.
Proof. intros W I x X. apply W. cbn [ast_nodes]. right. apply in_flat_map. eauto. Qed.
Lemma within_here a : within a -> In a top.
Proof. intros W. apply W. destruct a. left. reflexivity. Qed.
Lemma within_all t p cs : within (Ast t p cs) -> Forall within cs.
Proof. intros W. apply Forall_forall. intros c I. exact (within_child t p cs c W I). Qed.

Lemma declarators_origin E td base l ss E' : init_declarators E td base l ss E' -> Forall within l -> Forall (everywhere has_origin) ss.
Proof.
  induction 1; intros W; [constructor | |]; inversion W as [| ? ? W1 W2]; subst; (constructor; [| auto]).
  - apply everywhere_node; [split; [intros ? ? ? X; discriminate X | intros ? X; discriminate X] |]. constructor; [| constructor]. other. constructor.
  - apply everywhere_node.
    + split; [| intros ? X; discriminate X]. intros d1 n1 i1 X. injection X as <- <- <-. exists ia. do 2 eexists. split; [| eassumption]. apply within_here. eapply within_child; [exact W1 | cbn; tauto].
    + constructor; [other; constructor |]. constructor; [| constructor]. apply origin_sound. eapply initializer_everywhere. eassumption.
Qed.
Lemma declaration_origin E a s E' : declaration_rule E a s E' -> within a -> everywhere has_origin s.
Proof. destruct 1; intros W; other; [constructor |]. eapply declarators_origin; [eassumption |]. apply (within_all tl ql). eapply within_child; [exact W | cbn; tauto]. Qed.
Lemma tag_origin s : tag_decl s = true -> everywhere has_origin s.
Proof.
  intros T. destruct s as [t d p cs]. unfold tag_decl in T. destruct t; try discriminate. destruct d as [[] |]; try discriminate. destruct p; try discriminate. destruct cs; [| discriminate]. other. constructor.
Qed.
Lemma string_origin s : string_decl s = true -> everywhere has_origin s.
Proof.
  intros H. destruct s as [t d p cs]. unfold string_decl in H. destruct (string_of (Srt t d p cs)) as [[id str] |] eqn:S; [clear H | discriminate]. unfold string_of in S.
  repeat match type of S with (match ?x with _ => _ end) = Some _ => destruct x eqn:?; try discriminate end. subst.
  other. constructor; [| constructor]. apply everywhere_node; [split; [intros ? ? ? X; discriminate X | intros ? X; discriminate X] |]. constructor; [other; constructor |]. constructor; [| constructor]. other. constructor; [| constructor]. other. constructor.
Qed.
Ltac formed := repeat match goal with
  | H : elab _ _ ?s _ |- _ => pose proof (proj1 elab_everywhere _ _ _ _ H); revert H
  end; intros; facts.
Ltac sub := match goal with W : within (Ast _ _ _) |- within _ => eapply within_child; [exact W | cbn; tauto] end.
Ltac parts := repeat first [apply Forall_nil | apply Forall_cons]; try (now apply origin_sound); try match goal with H : within _ -> everywhere has_origin ?s |- everywhere has_origin ?s => apply H; sub end.
Lemma stmt_origin C :
  (forall E a s E', stmt C E a s E' -> within a -> everywhere has_origin s) /\ (forall E items cs E', block C E items cs E' -> Forall within items -> Forall (everywhere has_origin) cs).
Proof.
  apply (stmt_mutind (fun C E a s E' => within a -> everywhere has_origin s) (fun C E items cs E' => Forall within items -> Forall (everywhere has_origin) cs)); clear C; intros C; intros.
  1: { other. match goal with H : Forall within _ -> _ |- _ => apply H end. eapply within_all; eassumption. }
  all: try (formed; other; parts; fail).
  - apply everywhere_node; [| constructor]. split; intros; discriminate.
  - assert (everywhere (has_origin) v') by (formed; now apply origin_sound). apply everywhere_node; [| constructor; [assumption | constructor]]. split; [intros; discriminate |]. intros y Y. injection Y as <-. exists a, p, cs, E, s, v, E1, r. split; [now apply within_here |]. auto.
  - formed. other. parts. eapply declaration_origin; [eassumption | sub].
  - constructor.
  - constructor; [now apply tag_origin | auto].
  - match goal with W : Forall within (_ :: _) |- _ => inversion W; subst end. constructor; [eapply declaration_origin; eassumption | auto].
  - match goal with W : Forall within (_ :: _) |- _ => inversion W; subst end. constructor; auto.
Qed.
Lemma function_origin E a s E' : function_definition E a s E' -> within a -> everywhere has_origin s.
Proof.
  destruct 1 as [E t p ts q specs da tb qb items cs base E1 n ps ret E2 syms1 syms2 syms3 body E3 syms4 E4 SP D1 D2 D3 D4 D5 D6 B D7 D8]. intros W.
  other. constructor; [other; constructor |]. constructor; [| constructor]. other. eapply (proj2 (stmt_origin _)); [exact B |]. apply (within_all tb qb). eapply within_child; [exact W | cbn; tauto].
Qed.
Lemma unit_origin E items cs E' : unit_items E items cs E' -> Forall within items -> Forall (everywhere has_origin) cs.
Proof.
  induction 1; intros W; [constructor | | |].
  - constructor; [| auto]. destruct H; [now apply tag_origin | now apply string_origin].
  - inversion W; subst. constructor; [eapply function_origin; eassumption | auto].
  - inversion W; subst. constructor; [eapply declaration_origin; eassumption | auto].
Qed.
End Origin.
Lemma program_origin a s : program a s -> everywhere (has_origin (ast_nodes a)) s.
Proof.
  intros (cs & E' & -> & U & _). apply origin_other; [discriminate | discriminate |]. eapply unit_origin; [exact U |]. destruct a as [t p l]. apply (within_all _ t p). intros x X. exact X.
Qed.

Theorem resolve_initialises a s around d n i : resolve a = Ok s -> occurs s around (Srt SRT_INIT_DECL None SPNone [Srt SRT_IDENT_DECL (Some d) (SPName n) []; i]) ->
  covers d i /\ exists ia E E', In ia (ast_nodes a) /\ initializer E d ia i E'
    /\ forall p items, ia = Ast AST_INIT_LIST p items -> Forall expression_item items -> exists vs zs, scalars i = vs ++ zs /\ Forall2 value_for items vs /\ Forall is_zero zs.
Proof.
  intros H O. apply resolve_sound in H. destruct (proj1 (program_origin _ _ H _ _ O) _ _ _ eq_refl) as (ia & E & E' & I & R).
  split; [exact (proj1 initializer_covers _ _ _ _ _ R) |]. exists ia, E, E'. split; [exact I |]. split; [exact R |]. intros p items -> F. eapply flat_initializer; eassumption.
Qed.
Theorem resolve_returns a s around v : resolve a = Ok s -> occurs s around (stmt_node SRT_RET_STMT [v]) ->
  exists e p cs, In (Ast AST_RET_STMT p (e :: cs)) (ast_nodes a) /\ (exists E c w E' r, elab E e c E' /\ value_of c w /\ assigned_to r w v) /\ (pure_targets e -> effects v = effects_of_source e).
Proof.
  intros H O. apply resolve_sound in H. destruct (proj2 (program_origin _ _ H _ _ O) _ eq_refl) as (e & p & cs & E & c & w & E' & r & I & R & V & A).
  exists e, p, cs. split; [exact I |]. split; [exists E, c, w, E', r; auto |]. intros P. rewrite (assigned_effects _ _ _ A), (value_effects _ _ V). exact (proj1 elab_effects _ _ _ _ R P).
Qed.

(** * Single expressions *)
Lemma resolver_effects f a st s st' : inv st -> k_expr (resolvers f) a st = Ok (Some s, st') -> pure_targets a -> effects s = effects_of_source a.
Proof. intros I H. destruct (KE _ (knots f) _ _ _ _ I H) as [R _ _ _]. exact (proj1 elab_effects _ _ _ _ R). Qed.
Lemma resolver_sizeof f p a cs st s st' : inv st -> k_expr (resolvers f) (Ast AST_SIZEOF_EXPR p (a :: cs)) st = Ok (Some s, st') ->
  exists i d, s = Srt SRT_ILITERAL_EXPR (Some DTYPE_INT) (SPInt i) [] /\ itype i = IInt /\ sval i = sizeof d /\ ~ incomplete d /\ (forall ps r, d <> DTYPE_FUNCTION ps r)
    /\ (ast_type a = AST_TYPE_NAME /\ type_name (env_of st) a d (env_of st') \/ exists x, elab (env_of st) a x (env_of st') /\ has x d).
Proof.
  intros I H. destruct (KE _ (knots f) _ _ _ _ I H) as [R _ _ _]. clear I H. remember (Ast AST_SIZEOF_EXPR p (a :: cs)) as w eqn:W. destruct R; try discriminate; injection W; intros; subst.
  all: try solve [match goal with H : In (_, _) _ |- _ => exfalso; cbn in H; repeat (destruct H as [H | H]; [discriminate |]); destruct H end].
  - exists i, d. auto 9.
  - exists i, d. do 5 (split; [auto |]). right. eauto.
  - exfalso. intuition discriminate.
Qed.
