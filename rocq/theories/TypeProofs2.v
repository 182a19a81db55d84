(** C20: type specifiers.  More than four are rejected and the kinds are finitely many, so that all the
    accepted spellings can be enumerated. *)
From Coq Require Import Permutation.
From Verif Require Import Base AstModel DtypeModel SrtModel ResolverModel TypeSpec.
Local Open Scope Z_scope.

Definition kinds : list asttype :=
  [AST_TYPE_VOID; AST_TYPE_CHAR; AST_TYPE_INT; AST_TYPE_LONG; AST_TYPE_UNSIGNED; AST_TYPE_STRUCT; AST_TYPE_ENUM; AST_TYPEDEF_NAME].
Fixpoint lists_of (n : nat) : list (list asttype) :=
  match n with
  | O => [[]]
  | S m => flat_map (fun l => List.map (fun t => t :: l) kinds) (lists_of m)
  end.
Lemma in_lists_of l : (forall t, In t l -> In t kinds) -> In l (lists_of (length l)).
Proof.
  induction l as [| t l IH]; intros H; [now left |]. cbn [length lists_of]. apply in_flat_map. exists l. split.
  - apply IH. intros x Hx. apply H. now right.
  - apply in_map_iff. exists t. split; [reflexivity |]. apply H. now left.
Qed.

Definition asttype_dec : forall a b : asttype, {a = b} + {a <> b}.
Proof. decide equality. Defined.
Definition perm_test (l s : list asttype) : bool :=
  Nat.eqb (length l) (length s) &&
  forallb (fun t => Nat.eqb (count_occ asttype_dec l t) (count_occ asttype_dec s t)) kinds.
Lemma perm_test_spec l s : (forall t, In t l -> In t kinds) -> (forall t, In t s -> In t kinds) ->
  (perm_test l s = true <-> Permutation l s).
Proof.
  intros Hl Hs. split.
  - intros H. apply andb_prop in H as [_ H]. rewrite forallb_forall in H. apply (Permutation_count_occ asttype_dec).
    intros t. destruct (in_dec asttype_dec t kinds) as [I | I].
    + now apply Nat.eqb_eq, H.
    + rewrite (proj1 (count_occ_not_In asttype_dec l t)), (proj1 (count_occ_not_In asttype_dec s t)); auto.
  - intros H. unfold perm_test. rewrite (Permutation_length H), Nat.eqb_refl. cbn -[kinds]. apply forallb_forall.
    intros t _. apply Nat.eqb_eq. now apply (Permutation_count_occ asttype_dec).
Qed.
Definition spelled (l : list asttype) : option dtype :=
  match find (fun e => perm_test l (fst e)) specifier_sets with Some (_, d) => Some d | None => None end.

(** what the compiler makes of the kinds of the specifiers *)
Definition classify (l : list asttype) : res speckind :=
  let n := length l in
  if (n <? 1)%nat || (4 <? n)%nat then Ok SKInvalid
  else do s <- sort_ast_type (S n) (List.map asttype_num l) 0 (Z.of_nat n - 1); Ok (spec_lookup s spec_table).
Lemma classify_resolves k t p cs st :
  resolve_type_specifier_list k (Ast t p cs) st =
  do sk <- classify (List.map ast_type cs);
  match sk with
  | SKBase d => rok d st
  | SKStruct => do c <- child (Ast t p cs) 0; resolve_struct_specifier k c st
  | SKEnum => do c <- child (Ast t p cs) 0; resolve_enum_specifier k c st
  | SKTypedef => do c <- child (Ast t p cs) 0; resolve_typedef_name_specifier c st
  | SKInvalid => rerr st
  end.
Proof.
  unfold resolve_type_specifier_list, classify, nchildren. cbn [ast_children]. rewrite map_length, map_map.
  destruct (_ || _); [reflexivity |]. destruct (sort_ast_type _ _ _ _); reflexivity.
Qed.

Definition expected (l : list asttype) : speckind :=
  match l with
  | [AST_TYPE_STRUCT] => SKStruct
  | [AST_TYPE_ENUM] => SKEnum
  | [AST_TYPEDEF_NAME] => SKTypedef
  | _ => match spelled l with Some d => SKBase d | None => SKInvalid end
  end.
Definition speckind_eqb (a b : speckind) : bool :=
  match a, b with
  | SKBase d, SKBase e => dtype_equals d e && negb (is_struct d)
  | SKStruct, SKStruct | SKEnum, SKEnum | SKTypedef, SKTypedef | SKInvalid, SKInvalid => true
  | _, _ => false
  end.
Definition check (l : list asttype) : bool :=
  match classify l with Ok sk => speckind_eqb sk (expected l) | _ => false end.
Lemma all_checked : forallb (fun n => forallb check (lists_of n)) [0; 1; 2; 3; 4]%nat = true.
Proof. vm_compute. reflexivity. Qed.
Definition base (sk : speckind) : bool :=
  match sk with
  | SKBase d => match d with DTYPE_VOID | DTYPE_CHAR | DTYPE_INT | DTYPE_UNSIGNED_INT | DTYPE_LONG | DTYPE_UNSIGNED_LONG
                | DTYPE_LONGLONG | DTYPE_UNSIGNED_LONGLONG => true | _ => false end
  | _ => true
  end.
Lemma base_equal a b : base a = true -> speckind_eqb a b = true -> a = b.
Proof. destruct a, b; cbn; try discriminate; try reflexivity. destruct d; try discriminate; destruct d0; try discriminate; reflexivity. Qed.
Lemma lookup_base l : base (spec_lookup l spec_table) = true.
Proof. unfold spec_table, spec_lookup. repeat match goal with |- context [if ?b then _ else _] => destruct b; [reflexivity |] end. reflexivity. Qed.

Lemma specifier_sets_kinds s d : In (s, d) specifier_sets -> forall t, In t s -> In t kinds.
Proof.
  intros H t Ht. repeat (destruct H as [H | H]; [injection H as <- <-; cbn in *; intuition; subst; tauto |]). destruct H.
Qed.
Lemma specifier_sets_length s d : In (s, d) specifier_sets -> (1 <= length s <= 4)%nat.
Proof. intros H. repeat (destruct H as [H | H]; [injection H as <- <-; cbn; lia |]). destruct H. Qed.

Lemma classify_spec l : (forall t, In t l -> In t kinds) -> classify l = Ok (expected l).
Proof.
  intros H. destruct (Nat.leb (length l) 4) eqn:E.
  - apply Nat.leb_le in E. pose proof all_checked as C. rewrite forallb_forall in C.
    assert (Hn : In (length l) [0; 1; 2; 3; 4]%nat) by (cbn; lia). specialize (C _ Hn). rewrite forallb_forall in C.
    specialize (C l (in_lists_of l H)). unfold check in C. destruct (classify l) as [sk | | | |] eqn:F; try discriminate.
    f_equal. apply base_equal; [| assumption]. unfold classify in F. destruct (_ || _); [now injection F as <- |].
    destruct (sort_ast_type _ _ _ _); try discriminate. injection F as <-. apply lookup_base.
  - apply Nat.leb_gt in E. unfold classify. replace (4 <? length l)%nat with true by (symmetry; now apply Nat.ltb_lt). rewrite orb_true_r.
    f_equal. symmetry. destruct l as [| a [| b l]]; [cbn in E; lia | cbn in E; lia |].
    assert (X : expected (a :: b :: l) = match spelled (a :: b :: l) with Some d => SKBase d | None => SKInvalid end) by (destruct a; reflexivity).
    rewrite X. unfold spelled. destruct (find _ _) as [[s d] |] eqn:F; [| reflexivity].
    apply find_some in F as [F1 F2]. cbn [fst] in F2. apply andb_prop in F2 as [F2 _]. apply Nat.eqb_eq in F2.
    apply specifier_sets_length in F1. lia.
Qed.
Lemma spelled_spec l d : (forall t, In t l -> In t kinds) -> (spelled l = Some d <-> spells l d).
Proof.
  intros H. unfold spelled, spells. split.
  - destruct (find _ _) as [[s e] |] eqn:F; [| discriminate]. intros E. injection E as ->.
    apply find_some in F as [F1 F2]. cbn in F2. exists s. split; [assumption |].
    apply perm_test_spec; auto. eapply specifier_sets_kinds; eauto.
  - intros (s & Hs & P). destruct (find _ _) as [[s' e] |] eqn:F.
    + apply find_some in F as [F1 F2]. cbn [fst] in F2. apply perm_test_spec in F2; auto; [| eapply specifier_sets_kinds; eauto].
      f_equal. assert (Q : Permutation s' s) by (etransitivity; [symmetry; eassumption | assumption]).
      apply perm_test_spec in Q; [| eapply specifier_sets_kinds; eauto | eapply specifier_sets_kinds; eauto].
      clear - F1 Hs Q.
      assert (T : forallb (fun a => forallb (fun b => negb (perm_test (fst a) (fst b)) || speckind_eqb (SKBase (snd a)) (SKBase (snd b))) specifier_sets) specifier_sets = true) by (vm_compute; reflexivity).
      rewrite forallb_forall in T. specialize (T _ F1). rewrite forallb_forall in T. specialize (T _ Hs). cbn [fst snd] in T. rewrite Q in T. cbn [negb orb] in T.
      assert (B : forallb (fun a => base (SKBase (snd a))) specifier_sets = true) by (vm_compute; reflexivity).
      rewrite forallb_forall in B. specialize (B _ F1). cbn [fst snd] in B. apply base_equal in T; [congruence | assumption].
    + assert (X := find_none _ _ F _ Hs). cbn [fst] in X. rewrite (proj2 (perm_test_spec l s H (specifier_sets_kinds _ _ Hs)) P) in X. discriminate.
Qed.

Lemma keyword_kinds l : (forall t, In t l -> keyword t) -> forall t, In t l -> In t kinds.
Proof. intros H t Ht. specialize (H t Ht). cbn in *. tauto. Qed.
Lemma keyword_expected l : (forall t, In t l -> keyword t) -> expected l = match spelled l with Some d => SKBase d | None => SKInvalid end.
Proof.
  intros H. destruct l as [| a l]; [reflexivity |]. specialize (H a (or_introl eq_refl)).
  cbn in H. destruct H as [<- | [<- | [<- | [<- | [<- | []]]]]]; reflexivity.
Qed.

(** exactly the spellings of the table are accepted, and with the right type *)
Lemma specifiers_accepted k t p cs st d : (forall c, In c cs -> keyword (ast_type c)) ->
  (resolve_type_specifier_list k (Ast t p cs) st = rok d st <-> spells (List.map ast_type cs) d).
Proof.
  intros H. assert (HK : forall x, In x (List.map ast_type cs) -> keyword x).
  { intros x Hx. apply in_map_iff in Hx as (c & <- & Hc). auto. }
  rewrite classify_resolves, classify_spec by now apply keyword_kinds. cbn [bind].
  rewrite keyword_expected by assumption. rewrite <- spelled_spec by now apply keyword_kinds.
  destruct (spelled _); unfold rok, rerr; split; intros E; congruence.
Qed.
Lemma specifiers_rejected k t p cs st : (forall c, In c cs -> keyword (ast_type c)) ->
  (forall d, ~ spells (List.map ast_type cs) d) -> resolve_type_specifier_list k (Ast t p cs) st = rerr st.
Proof.
  intros H N. assert (HK : forall x, In x (List.map ast_type cs) -> keyword x).
  { intros x Hx. apply in_map_iff in Hx as (c & <- & Hc). auto. }
  rewrite classify_resolves, classify_spec by now apply keyword_kinds. cbn [bind].
  rewrite keyword_expected by assumption. destruct (spelled _) as [d |] eqn:E; [| reflexivity].
  apply spelled_spec in E; [| now apply keyword_kinds]. exfalso. eapply N; eauto.
Qed.
(** a struct or enum specifier or a typedef name among other specifiers *)
Lemma specifiers_alone k t p cs st : (forall c, In c cs -> keyword (ast_type c) \/ alone (ast_type c)) ->
  (exists c, In c cs /\ alone (ast_type c)) -> (2 <= length cs)%nat ->
  resolve_type_specifier_list k (Ast t p cs) st = rerr st.
Proof.
  intros H (c & Hc & Ha) L.
  assert (HK : forall x, In x (List.map ast_type cs) -> In x kinds).
  { intros x Hx. apply in_map_iff in Hx as (y & <- & Hy). destruct (H y Hy) as [X | X]; cbn in *; tauto. }
  rewrite classify_resolves, classify_spec by assumption. cbn [bind].
  assert (E : expected (List.map ast_type cs) = match spelled (List.map ast_type cs) with Some d => SKBase d | None => SKInvalid end).
  { destruct cs as [| a [| b cs]]; [cbn in L; lia | cbn in L; lia |]. cbn [List.map]. destruct (ast_type a); reflexivity. }
  rewrite E. destruct (spelled _) as [d |] eqn:F; [| reflexivity]. exfalso.
  apply spelled_spec in F; [| assumption]. destruct F as (s & Hs & P).
  assert (I : In (ast_type c) s) by (eapply Permutation_in; [eassumption | now apply in_map]).
  clear - Hs I Ha. cbn in Ha. repeat (destruct Hs as [Hs | Hs]; [injection Hs as <- <-; cbn in I; intuition congruence |]). destruct Hs.
Qed.
(** permuting the specifiers, `typedef` included, changes nothing *)
Lemma filter_permutation {A} (f : A -> bool) l l' : Permutation l l' -> Permutation (filter f l) (filter f l').
Proof.
  intros P. induction P; cbn.
  - constructor.
  - destruct (f x); [now constructor | assumption].
  - destruct (f x), (f y); try apply perm_swap; reflexivity.
  - etransitivity; eassumption.
Qed.
Lemma spelled_permutation l l' : Permutation l l' -> spelled l = spelled l'.
Proof.
  intros P. unfold spelled, perm_test. rewrite (Permutation_length P).
  assert (C : forall x, count_occ asttype_dec l x = count_occ asttype_dec l' x) by now apply Permutation_count_occ.
  assert (G : forall A (P Q : A -> bool) l, (forall x, P x = Q x) -> find P l = find Q l).
  { intros A P0 Q0 m E. induction m as [| a m IH]; [reflexivity |]. cbn. now rewrite E, IH. }
  erewrite G; [reflexivity |]. intros [s d]. cbn [fst]. f_equal. cbn -[count_occ]. rewrite !C. reflexivity.
Qed.
Lemma expected_permutation l l' : Permutation l l' -> expected l = expected l'.
Proof.
  intros P. destruct l as [| a [| b l]].
  - apply Permutation_nil in P. now subst.
  - apply Permutation_length_1_inv in P. now subst.
  - destruct l' as [| a' [| b' l']]; [apply Permutation_length in P; cbn in P; lia | apply Permutation_length in P; cbn in P; lia |].
    apply spelled_permutation in P.
    assert (X : forall a b l, expected (a :: b :: l) = match spelled (a :: b :: l) with Some d => SKBase d | None => SKInvalid end) by (intros []; reflexivity).
    now rewrite !X, P.
Qed.
Lemma permuted_specifiers f t p cs cs' st :
  (forall c, In c cs -> keyword (ast_type c) \/ alone (ast_type c) \/ ast_type c = AST_STG_TYPEDEF) ->
  Permutation cs cs' ->
  resolve_decl_specifiers (resolvers (S f)) (Ast t p cs) st = resolve_decl_specifiers (resolvers (S f)) (Ast t p cs') st.
Proof.
  intros H P.
  assert (TD : existsb (fun c => ast_is c AST_STG_TYPEDEF) cs = existsb (fun c => ast_is c AST_STG_TYPEDEF) cs').
  { clear - P. induction P; cbn; try reflexivity; [now rewrite IHP | destruct (ast_is x _), (ast_is y _); reflexivity | congruence]. }
  unfold resolve_decl_specifiers. cbn [ast_children ast_type ast_payload]. rewrite TD.
  apply (filter_permutation (fun c => negb (ast_is c AST_STG_TYPEDEF))) in P.
  cbn [resolvers k_specs]. set (k := resolvers f).
  assert (K : forall x, In x (List.map ast_type (filter (fun c => negb (ast_is c AST_STG_TYPEDEF)) cs)) -> In x kinds).
  { intros x Hx. apply in_map_iff in Hx as (c & <- & Hc). apply filter_In in Hc as [Hc Hn].
    destruct (H c Hc) as [X | [X | X]]; [cbn in *; tauto | cbn in *; tauto |]. unfold ast_is in Hn. rewrite X in Hn. discriminate. }
  clear H TD. set (l := filter _ cs) in *. set (l' := filter _ cs') in *. clearbody l l'.
  assert (K' : forall x, In x (List.map ast_type l') -> In x kinds).
  { intros x Hx. apply K. apply in_map_iff in Hx as (c & <- & Hc). apply in_map. apply (Permutation_in (l := l')); [now symmetry | assumption]. }
  rewrite !classify_resolves, !classify_spec by assumption. cbn [bind].
  rewrite (expected_permutation _ _ (Permutation_map ast_type P)).
  destruct l as [| a [| b l]].
  - apply Permutation_nil in P. now subst.
  - apply Permutation_length_1_inv in P. now subst.
  - destruct l' as [| a' [| b' l']]; [apply Permutation_length in P; cbn in P; lia | apply Permutation_length in P; cbn in P; lia |].
    cbn [List.map].
    assert (X : forall a b l, expected (a :: b :: l) = match spelled (a :: b :: l) with Some d => SKBase d | None => SKInvalid end) by (intros []; reflexivity).
    rewrite X. destruct (spelled _); reflexivity.
Qed.
