(** Proofs for C23 - C25, C27, C28, first part: preliminaries on syntax tree types, specifiers and tables. *)
From Coq Require Import Permutation.
From Verif Require Import Base AstModel DtypeModel SymtabModel SrtModel ResolverModel TypeSpec TypeProofs TypeProofs2 ElabSpec.
Local Open Scope Z_scope.

(** * Syntax tree types *)
Definition all_asttypes : list asttype := [
  AST_TRAS_UNIT; AST_FUNC_DEF; AST_DECL; AST_DECL_SPECS; AST_SPEC_QUAL_LIST; AST_INIT_DECLOR_LIST;
  AST_INIT_DECLOR; AST_STG_TYPEDEF; AST_TYPE_VOID; AST_TYPE_CHAR; AST_TYPE_INT; AST_TYPE_LONG;
  AST_TYPE_UNSIGNED; AST_TYPE_STRUCT; AST_TYPE_ENUM; AST_TYPEDEF_NAME; AST_TYPE_NAME; AST_STRUCT_NAME;
  AST_STRUCT_DECL_LIST; AST_STRUCT_DECL; AST_STRUCT_DECLOR_LIST; AST_ENUM_NAME; AST_ENUMOR_LIST; AST_ENUMOR;
  AST_ENUM_CONST; AST_IDENT_DECLOR; AST_ABS_DECLOR; AST_PTR_DECLOR; AST_ARRAY_DECLOR; AST_FUNC_DECLOR;
  AST_PARAM_LIST; AST_PARAM_DECL; AST_INIT_LIST; AST_CMPD_STMT; AST_CASE_STMT; AST_DEFAULT_STMT;
  AST_CONTINUE_STMT; AST_BREAK_STMT; AST_RET_STMT; AST_EXPR_STMT; AST_NULL_STMT; AST_IF_STMT;
  AST_SWITCH_STMT; AST_WHILE_STMT; AST_FOR_STMT; AST_ASSIGN_EXPR; AST_MUL_ASSIGN_EXPR; AST_DIV_ASSIGN_EXPR;
  AST_MOD_ASSIGN_EXPR; AST_ADD_ASSIGN_EXPR; AST_SUB_ASSIGN_EXPR; AST_LSHIFT_ASSIGN_EXPR;
  AST_RSHIFT_ASSIGN_EXPR; AST_AND_ASSIGN_EXPR; AST_XOR_ASSIGN_EXPR; AST_OR_ASSIGN_EXPR; AST_COND_EXPR;
  AST_LOR_EXPR; AST_LAND_EXPR; AST_OR_EXPR; AST_XOR_EXPR; AST_AND_EXPR; AST_EQUAL_EXPR; AST_NEQUAL_EXPR;
  AST_LESS_EXPR; AST_GREATER_EXPR; AST_LESSEQ_EXPR; AST_GREATEREQ_EXPR; AST_LSHIFT_EXPR; AST_RSHIFT_EXPR;
  AST_ADD_EXPR; AST_SUB_EXPR; AST_MUL_EXPR; AST_DIV_EXPR; AST_MOD_EXPR; AST_CAST_EXPR; AST_PREINC_EXPR;
  AST_PREDEC_EXPR; AST_ADDR_EXPR; AST_INDIR_EXPR; AST_POS_EXPR; AST_NEG_EXPR; AST_NOT_EXPR; AST_LNOT_EXPR;
  AST_SIZEOF_EXPR; AST_SUBSC_EXPR; AST_CALL_EXPR; AST_MEMBER_EXPR; AST_TOMEMBER_EXPR; AST_POSTINC_EXPR;
  AST_POSTDEC_EXPR; AST_ARG_LIST; AST_IDENT_EXPR; AST_INT_EXPR; AST_CHAR_EXPR; AST_STRING_EXPR].
Lemma asttype_num_inj a b : asttype_num a = asttype_num b -> a = b.
Proof.
  assert (H : forall t, nth_error all_asttypes (Z.to_nat (asttype_num t)) = Some t) by (intros []; reflexivity).
  intros E. pose proof (H a) as A. pose proof (H b) as B. rewrite E in A. congruence.
Qed.
Lemma ast_is_true a t : ast_is a t = true -> ast_type a = t.
Proof. unfold ast_is, asttype_eqb. intros E. apply asttype_num_inj. lia. Qed.
Lemma ast_is_false a t : ast_is a t = false -> ast_type a <> t.
Proof. unfold ast_is, asttype_eqb. intros E H. rewrite H in E. lia. Qed.

(** * Sorting *)
Lemma list_set_length {A} (l : list A) i x l' : list_set l i x = Some l' -> length l' = length l.
Proof.
  revert i l'. induction l as [| a l IH]; intros [| i] l' H; cbn in H; try discriminate.
  - injection H as <-. reflexivity.
  - destruct (list_set l i x) eqn:E; [| discriminate]. injection H as <-. cbn. now rewrite (IH _ _ E).
Qed.

Lemma list_set_nth {A} (l : list A) i x l' : list_set l i x = Some l' -> nth_error l' i = Some x.
Proof.
  revert i l'. induction l as [| a l IH]; intros [| i] l' H; cbn in H; try discriminate.
  - now injection H as <-.
  - destruct (list_set l i x) eqn:E; [| discriminate]. injection H as <-. cbn. eauto.
Qed.
Lemma list_set_remove {A} (l : list A) i x l' : list_set l i x = Some l' ->
  exists y pre post, nth_error l i = Some y /\ l = pre ++ y :: post /\ l' = pre ++ x :: post /\ length pre = i.
Proof.
  revert i l'. induction l as [| a l IH]; intros [| i] l' H; cbn in H; try discriminate.
  - injection H as <-. exists a, [], l. auto.
  - destruct (list_set l i x) eqn:E; [| discriminate]. injection H as <-.
    destruct (IH _ _ E) as (y & pre & post & N & -> & -> & L). exists y, (a :: pre), post. cbn. repeat split; auto.
Qed.
Lemma list_set_total {A} (l : list A) i x y : nth_error l i = Some y -> exists l', list_set l i x = Some l'.
Proof.
  revert i. induction l as [| a l IH]; intros [| i] H; cbn in *; try discriminate; eauto.
  destruct (IH _ H) as (l' & ->). eauto.
Qed.
Lemma list_set_permutation {A} (l : list A) i x l' y : list_set l i x = Some l' -> nth_error l i = Some y ->
  Permutation (y :: l') (x :: l).
Proof.
  intros H N. destruct (list_set_remove _ _ _ _ H) as (y' & pre & post & N' & -> & -> & _).
  rewrite N in N'. injection N' as <-.
  rewrite <- !Permutation_middle. apply perm_swap.
Qed.
(** [l] with [p] stored at [i] *)
Lemma move_hole {A} (l l1 : list A) i j x p h1 h2 : nth_error l j = Some x -> list_set l i x = Some l1 ->
  list_set l i p = Some h1 -> list_set l1 j p = Some h2 -> Permutation h2 h1.
Proof.
  intros N S1 P1 P2.
  assert (Y : exists y, nth_error l i = Some y) by (destruct (list_set_remove _ _ _ _ S1) as (y & ? & ? & ? & _); eauto).
  destruct Y as (y & Y).
  assert (X : nth_error l1 j = Some x).
  { destruct (Nat.eq_dec i j) as [-> | D].
    - eapply list_set_nth; eassumption.
    - clear - N S1 D. revert i j l1 N S1 D. induction l as [| a l IH]; intros [| i] [| j] l1 N S1 D; cbn in *; try discriminate; try congruence.
      + injection S1 as <-. assumption.
      + destruct (list_set l i x) eqn:E; [| discriminate]. injection S1 as <-. assumption.
      + destruct (list_set l i x) eqn:E; [| discriminate]. injection S1 as <-. cbn. eapply IH; eauto. }
  pose proof (list_set_permutation _ _ _ _ _ S1 Y) as A1. pose proof (list_set_permutation _ _ _ _ _ P1 Y) as A2.
  pose proof (list_set_permutation _ _ _ _ _ P2 X) as A3.
  apply (Permutation_cons_inv (a := x)). apply (Permutation_cons_inv (a := y)).
  transitivity (y :: p :: l1); [now constructor |]. transitivity (p :: y :: l1); [apply perm_swap |].
  transitivity (p :: x :: l); [now constructor |]. transitivity (x :: p :: l); [apply perm_swap |].
  transitivity (x :: y :: h1); [constructor; now symmetry | apply perm_swap].
Qed.
Lemma bind_ok {A B} (m : res A) (k : A -> res B) r : bind m k = Ok r -> exists a, m = Ok a /\ k a = Ok r.
Proof. destruct m; cbn; try discriminate. eauto. Qed.
Lemma deref_ok {A} (o : option A) a : deref o = Ok a -> o = Some a.
Proof. destruct o; cbn; congruence. Qed.
Lemma arr_get_ok l i x : arr_get l i = Ok x -> 0 <= i /\ nth_error l (Z.to_nat i) = Some x.
Proof. unfold arr_get. destruct (_ <? _) eqn:E; [discriminate |]. intros H%deref_ok. split; [lia | assumption]. Qed.
Lemma arr_set_ok l i x l' : arr_set l i x = Ok l' -> 0 <= i /\ list_set l (Z.to_nat i) x = Some l'.
Proof. unfold arr_set. destruct (_ <? _) eqn:E; [discriminate |]. intros H%deref_ok. split; [lia | assumption]. Qed.
(** the hole of the partition *)
Definition plugged (l : list Z) (i p : Z) (h : list Z) : Prop := list_set l (Z.to_nat i) p = Some h.
Lemma partition_permutation fuel : forall l i j p l' i' j' h, sort_partition fuel l i j p = Ok (l', i', j') -> plugged l i p h ->
  exists h', plugged l' i' p h' /\ Permutation h' h.
Proof.
  induction fuel as [| f IH]; intros l i j p l' i' j' h H P; [discriminate |]. cbn [sort_partition] in H.
  destruct (i <? j) eqn:E; [| injection H as <- <- <-; eauto].
  apply bind_ok in H as (j1 & _ & H). apply bind_ok in H as (x & X%arr_get_ok & H). apply bind_ok in H as (l1 & L1%arr_set_ok & H).
  apply bind_ok in H as (i1 & _ & H). apply bind_ok in H as (y & Y%arr_get_ok & H). apply bind_ok in H as (l2 & L2%arr_set_ok & H).
  destruct X as (_ & X), L1 as (_ & L1), Y as (_ & Y), L2 as (_ & L2).
  assert (P1 : exists h1, list_set l1 (Z.to_nat j1) p = Some h1).
  { destruct (list_set_remove _ _ _ _ L2) as (z & ? & ? & Z & _). eapply list_set_total; eassumption. }
  destruct P1 as (h1 & P1).
  assert (P2 : exists h2, list_set l2 (Z.to_nat i1) p = Some h2).
  { assert (Z.to_nat i1 < length l2)%nat.
    { rewrite (list_set_length _ _ _ _ L2). apply nth_error_Some. congruence. }
    apply nth_error_Some in H0. destruct (nth_error l2 (Z.to_nat i1)) eqn:F; [| congruence]. eapply list_set_total; eassumption. }
  destruct P2 as (h2 & P2).
  pose proof (move_hole _ _ _ _ _ _ _ _ X L1 P P1) as Q1. pose proof (move_hole _ _ _ _ _ _ _ _ Y L2 P1 P2) as Q2.
  destruct (IH _ _ _ _ _ _ _ _ H P2) as (h' & P' & Q'). exists h'. split; [assumption |]. now rewrite Q', Q2, Q1.
Qed.
Lemma list_set_same {A} (l : list A) i x : nth_error l i = Some x -> list_set l i x = Some l.
Proof. revert i. induction l as [| a l IH]; intros [| i] H; cbn in *; try discriminate; [congruence |]. now rewrite IH. Qed.
Lemma sort_permutation fuel : forall l b e l', sort_ast_type fuel l b e = Ok l' -> Permutation l' l.
Proof.
  induction fuel as [| f IH]; intros l b e l' H; [discriminate |]. cbn [sort_ast_type] in H.
  destruct (b >=? e); [injection H as <-; reflexivity |].
  apply bind_ok in H as (p & P%arr_get_ok & H). apply bind_ok in H as ([[l1 i] j] & L1 & H).
  apply bind_ok in H as (l2 & L2%arr_set_ok & H). apply bind_ok in H as (l3 & L3 & H).
  destruct (partition_permutation _ _ _ _ _ _ _ _ _ L1 (list_set_same _ _ _ (proj2 P))) as (h & Hh & Q).
  unfold plugged in Hh. destruct L2 as (_ & L2). assert (h = l2) by congruence. subst h.
  rewrite (IH _ _ _ _ H), (IH _ _ _ _ L3). assumption.
Qed.

Lemma lookup_entry l tab sk : spec_lookup l tab = sk -> sk <> SKInvalid -> exists ts, In (ts, sk) tab /\ l = List.map asttype_num ts.
Proof.
  induction tab as [| [ts k] tab IH]; cbn; intros H N; [congruence |].
  destruct (nums_eqb l ts) eqn:E.
  - subst k. exists ts. split; [now left |]. clear - E. revert ts E. induction l as [| x l IH]; intros [| t ts] E; cbn in E; try discriminate; [reflexivity |].
    apply andb_prop in E as [E1 E2]. cbn. rewrite (IH _ E2). f_equal. lia.
  - destruct (IH H N) as (ts' & I & L). exists ts'. split; [now right | assumption].
Qed.
Lemma map_num_permutation l ts : Permutation (List.map asttype_num l) (List.map asttype_num ts) -> Permutation l ts.
Proof.
  intros P. apply Permutation_map_inv in P as (l3 & E & P). etransitivity; [| symmetry; exact P].
  assert (l = l3); [| now subst]. clear P. revert l3 E. induction l as [| a l IH]; intros [| b l3] E; cbn in E; try discriminate; [reflexivity |].
  injection E as E1 E2. f_equal; [now apply asttype_num_inj | auto].
Qed.
(** what the specifiers are when the compiler accepts them *)
Lemma classify_inv l sk : classify l = Ok sk -> sk <> SKInvalid -> match sk with
  | SKBase d => spells l d
  | SKStruct => l = [AST_TYPE_STRUCT]
  | SKEnum => l = [AST_TYPE_ENUM]
  | SKTypedef => l = [AST_TYPEDEF_NAME]
  | SKInvalid => False
  end.
Proof.
  intros H N. unfold classify in H. destruct (_ || _); [injection H as <-; congruence |].
  apply bind_ok in H as (s & S%sort_permutation & H). assert (H' : spec_lookup s spec_table = sk) by congruence. destruct (lookup_entry _ _ _ H' N) as (ts & I & ->).
  symmetry in S. apply map_num_permutation in S.
  assert (K : forall t, In t l -> In t kinds).
  { intros t Ht. apply (Permutation_in _ S) in Ht. clear - I Ht. cbn in I.
    repeat (destruct I as [I | I]; [injection I as <- <-; cbn in *; intuition; subst; tauto |]). destruct I. }
  destruct sk; try congruence.
  - apply spelled_spec; [assumption |]. rewrite (spelled_permutation _ _ S). clear - I. cbn in I.
    repeat (destruct I as [I | I]; [try discriminate I; injection I as <- <-; vm_compute; reflexivity |]). destruct I.
  - cbn in I. repeat (destruct I as [I | I]; [try discriminate I; injection I as <-; apply Permutation_sym in S; now apply Permutation_length_1_inv in S |]). destruct I.
  - cbn in I. repeat (destruct I as [I | I]; [try discriminate I; injection I as <-; apply Permutation_sym in S; now apply Permutation_length_1_inv in S |]). destruct I.
  - cbn in I. repeat (destruct I as [I | I]; [try discriminate I; injection I as <-; apply Permutation_sym in S; now apply Permutation_length_1_inv in S |]). destruct I.
Qed.
