(** Proofs for C23 - C25, C27, C28, second part: the state of the resolver, and expressions. *)
From Verif Require Import Base AstModel DtypeModel SymtabModel SrtModel ResolverModel TypeSpec TypeProofs TypeProofs2 ElabSpec ElabProofs.
Local Open Scope Z_scope.

Lemma Ok_inj {A} (a b : A) : Ok a = Ok b -> a = b.
Proof. congruence. Qed.

(** * Types in the tables *)
(** no enumeration and no typedef inside *)
Fixpoint clean (d : dtype) : bool :=
  match d with
  | DTYPE_NENUM _ | DTYPE_UENUM _ | DTYPE_TYPEDEF _ => false
  | DTYPE_POINTER t => clean t
  | DTYPE_ARRAY t _ => clean t
  | DTYPE_USTRUCT ms _ _ => forallb (fun m => clean (snd (fst m))) ms
  | DTYPE_FUNCTION ps r => forallb (fun p => clean (snd p)) ps && clean r
  | _ => true
  end.
Definition vclean (d : dtype) : bool := match d with DTYPE_TYPEDEF t => clean t | _ => clean d end.
Definition tclean (d : dtype) : bool :=
  match d with DTYPE_UENUM _ => true | DTYPE_USTRUCT _ _ _ => clean d | _ => false end.
Lemma clean_vclean d : clean d = true -> vclean d = true.
Proof. destruct d; cbn; try discriminate; auto. Qed.
Lemma vclean_clean d : vclean d = true -> (forall t, d <> DTYPE_TYPEDEF t) -> clean d = true.
Proof. destruct d; cbn; auto. intros _ H. now destruct (H d). Qed.

Definition syms_ok (t : symtab) : Prop := forall sc n y, In sc t -> In (n, y) (sc_map sc) -> vclean (sy_dtype y) = true.
Definition tags_ok (t : tagtab) : Prop := forall s n d, In s t -> In (n, d) s -> tclean d = true.

Lemma assoc_in {A} n (l : list (name * A)) v : assoc n l = Some v -> In (n, v) l.
Proof.
  induction l as [| [m w] l IH]; cbn; [discriminate |]. destruct (name_eqb n m) eqn:E.
  - apply name_eqb_eq in E as ->. intros H. injection H as ->. now left.
  - intros H. right. auto.
Qed.
Lemma sym_search_ok t n y : syms_ok t -> sym_search t n = Some y -> vclean (sy_dtype y) = true.
Proof.
  intros H. induction t as [| s t IH]; cbn; [discriminate |]. destruct (assoc n (sc_map s)) as [z |] eqn:E.
  - intros E'. injection E' as ->. eapply H; [now left | eapply assoc_in; eassumption].
  - apply IH. intros sc m w I J. eapply H; [right |]; eassumption.
Qed.
Lemma tag_search_ok t n d : tags_ok t -> tag_search t n = Some d -> tclean d = true.
Proof.
  intros H. induction t as [| s t IH]; cbn; [discriminate |]. destruct (assoc n s) as [z |] eqn:E.
  - intros E'. injection E' as ->. eapply H; [now left | eapply assoc_in; eassumption].
  - apply IH. intros sc m w I J. eapply H; [right |]; eassumption.
Qed.
Lemma sym_add_ok t n y nb : syms_ok t -> vclean (sy_dtype y) = true -> syms_ok (sym_add t n y nb).
Proof.
  intros H Y. destruct t as [| sc t]; [assumption |]. intros sc' m z [<- | I] J.
  - cbn in J. destruct J as [J | J]; [injection J as <- <-; assumption | eapply H; [now left | eassumption]].
  - eapply H; [right |]; eassumption.
Qed.
Lemma tag_add_ok t n d : tags_ok t -> tclean d = true -> tags_ok (tag_add t n d).
Proof.
  intros H Y. destruct t as [| sc t]; [assumption |]. intros sc' m z [<- | I] J.
  - destruct J as [J | J]; [injection J as <- <-; assumption | eapply H; [now left | eassumption]].
  - eapply H; [right |]; eassumption.
Qed.
Lemma define_label_ok t n d t' : syms_ok t -> vclean d = true -> sym_define_label t n d = Ok t' -> syms_ok t'.
Proof.
  intros H D E. unfold sym_define_label in E. apply bind_ok in E as (b & B & E). destruct t; [discriminate |].
  apply Ok_inj in E; subst t'. destruct b; [| assumption]. now apply sym_add_ok.
Qed.
Lemma define_memory_ok t n d t' : syms_ok t -> vclean d = true -> sym_define_memory t n d = Ok t' -> syms_ok t'.
Proof.
  intros H D E. unfold sym_define_memory in E. apply bind_ok in E as (b & B & E). destruct t; [discriminate |].
  destruct b; [| apply Ok_inj in E; subst t'; assumption]. apply bind_ok in E as (nb & _ & E). apply Ok_inj in E; subst t'. now apply sym_add_ok.
Qed.
Lemma define_integer_ok t n d i t' : syms_ok t -> vclean d = true -> sym_define_integer t n d i = Ok t' -> syms_ok t'.
Proof.
  intros H D E. unfold sym_define_integer in E. apply bind_ok in E as (b & B & E). destruct t; [discriminate |].
  apply Ok_inj in E; subst t'. destruct b; [| assumption]. now apply sym_add_ok.
Qed.
Lemma enter_syms_ok t : syms_ok t -> syms_ok (sym_enter t).
Proof. intros S sc n y [<- | I]; [intros [] | intros J; eapply S; eassumption]. Qed.
Lemma enter_tags_ok t : tags_ok t -> tags_ok (tag_enter t).
Proof. intros S sc n y [<- | I]; [intros [] | intros J; eapply S; eassumption]. Qed.
Lemma sym_exit_ok t t' : syms_ok t -> sym_exit t = Ok t' -> syms_ok t'.
Proof.
  intros H E. destruct t as [| a [| b t]]; cbn in E; try discriminate; injection E as <-.
  - intros sc n y [].
  - intros sc n y [<- | I] J.
    + eapply (H b); [right; now left | eassumption].
    + eapply (H sc); [right; now right | eassumption].
Qed.
Lemma tag_exit_ok t t' : tags_ok t -> tag_exit t = Ok t' -> tags_ok t'.
Proof. intros H E. destruct t; cbn in E; [discriminate |]. injection E as <-. intros s n d I J. eapply H; [right |]; eassumption. Qed.
Lemma set_nbytes_ok t nb t' : syms_ok t -> sym_set_nbytes t nb = Ok t' -> syms_ok t'.
Proof.
  intros H E. destruct t; cbn in E; [discriminate |]. injection E as <-. intros sc n y [<- | I] J; cbn in *.
  - eapply H; [now left | eassumption].
  - eapply H; [right; eassumption | eassumption].
Qed.

(** * The state *)
Definition env_of (st : rst) : env := mkenv (r_syms st) (r_tags st) (List.map snd (string_decls (r_tu st))).
Lemma string_decls_app a b : string_decls (a ++ b) = string_decls a ++ string_decls b.
Proof. apply flat_map_app. Qed.
Lemma numbered_app i a b : numbered i (a ++ b) = numbered i a ++ numbered (i + Z.of_nat (length a)) b.
Proof. revert i. induction a as [| x a IH]; intros i; cbn [app numbered length]; [now rewrite Z.add_0_r |]. rewrite IH. do 3 f_equal. lia. Qed.
Lemma length_app_Z {A} (a b : list A) : Z.of_nat (length (a ++ b)) = Z.of_nat (length a) + Z.of_nat (length b).
Proof. rewrite app_length. lia. Qed.
Definition strings_ok (st : rst) : Prop :=
  string_decls (r_tu st) = numbered 0 (e_strings (env_of st)) /\ r_sid st + 1 = Z.of_nat (length (e_strings (env_of st))).
Definition inv (st : rst) : Prop := syms_ok (r_syms st) /\ tags_ok (r_tags st) /\ strings_ok st.
Lemma enter_ok st : inv st -> inv (set_tags (tag_enter (r_tags st)) (set_syms (sym_enter (r_syms st)) st)).
Proof. intros (S & T & N). split; [now apply enter_syms_ok |]. split; [now apply enter_tags_ok | exact N]. Qed.
Definition hidden (s : srt) : bool := tag_decl s || string_decl s.
(** only tag definitions and string declarations are added to the enclosing block and the translation unit *)
Record scoped (st st' : rst) : Prop := {
  sc_unit : exists ts, r_tu st' = r_tu st ++ ts /\ forallb hidden ts = true;
  sc_block : match r_scope st, r_scope st' with
    | None, None => True
    | Some l, Some l' => exists ts, l' = l ++ ts /\ forallb tag_decl ts = true
    | _, _ => False end
}.
Record quiet (st st' : rst) : Prop := {
  q_loop : r_loop st' = r_loop st;
  q_cases : r_cases st' = r_cases st;
  q_default : r_default st' = r_default st;
  q_ret : r_ret st' = r_ret st;
  q_off : r_off st' = r_off st;
  q_scoped : scoped st st'
}.
Lemma scoped_refl st : scoped st st.
Proof. split; [exists []; now rewrite app_nil_r |]. destruct (r_scope st); [| exact I]. exists []. now rewrite app_nil_r. Qed.
Lemma scoped_trans a b c : scoped a b -> scoped b c -> scoped a c.
Proof.
  intros [(t1 & A1 & B1) A2] [(t2 & A3 & B3) A4]. split.
  - exists (t1 ++ t2). rewrite A3, A1, app_assoc, forallb_app, B1, B3. auto.
  - destruct (r_scope a), (r_scope b), (r_scope c); try contradiction; auto.
    destruct A2 as (x & -> & X), A4 as (y & -> & Y). exists (x ++ y). now rewrite app_assoc, forallb_app, X, Y.
Qed.
Lemma quiet_refl st : quiet st st.
Proof. split; auto using scoped_refl. Qed.
Lemma quiet_trans a b c : quiet a b -> quiet b c -> quiet a c.
Proof. intros [] []. split; try congruence. eapply scoped_trans; eassumption. Qed.
Global Hint Resolve quiet_refl : core.
Ltac quiet := repeat (eassumption || apply quiet_refl || (eapply quiet_trans; [eassumption |])).

Ltac splits := repeat match goal with |- _ /\ _ => split end.

(** [dty] of something whose type is known *)
Ltac same_dty := repeat match goal with
  | H1 : srt_dtype ?x = Some ?d, H2 : srt_dtype ?x = Some ?e |- _ => lazymatch d with e => fail | _ => idtac end; assert (e = d) by congruence; subst e end.
Ltac bools := repeat match goal with
  | H : _ && _ = true |- _ => apply andb_prop in H as [? ?]
  | H : _ || _ = false |- _ => apply orb_false_elim in H as [? ?]
  | H : negb _ = false |- _ => apply negb_false_iff in H
  | H : negb _ = true |- _ => apply negb_true_iff in H
  end.


(** * Successful runs *)
Lemma rbind_some {A B} (m : rres A) (k : A -> rst -> rres B) b st' : rbind m k = Ok (Some b, st') ->
  exists a st1, m = Ok (Some a, st1) /\ k a st1 = Ok (Some b, st').
Proof. destruct m as [[[a |] st1] | | | |]; cbn; try discriminate. eauto. Qed.
Lemma rok_some {A} (a b : A) st st' : rok a st = Ok (Some b, st') -> a = b /\ st = st'.
Proof. unfold rok. intros H. injection H. auto. Qed.
Lemma child_ok a i x : child a i = Ok x -> nth_error (ast_children a) i = Some x.
Proof. apply deref_ok. Qed.
Ltac rinv :=
  repeat match goal with
  | H : rbind ?m ?k = Ok (Some _, _) |- _ =>
      let a := fresh "a" in let s := fresh "st" in let E := fresh "M" in
      apply rbind_some in H; destruct H as (a & s & E & H); cbv beta in H
  | H : bind ?m ?k = Ok _ |- _ =>
      let a := fresh "v" in let E := fresh "M" in
      apply bind_ok in H; destruct H as (a & E & H); cbv beta in H
  | H : rok _ _ = Ok (Some _, _) |- _ => unfold rok in H; injection H; clear H; intros; subst
  | H : rerr _ = Ok (Some _, _) |- _ => discriminate H
  | H : UB = Ok _ |- _ => discriminate H
  | H : Err = Ok _ |- _ => discriminate H
  | H : Fatal = Ok _ |- _ => discriminate H
  | H : Fuel = Ok _ |- _ => discriminate H
  | H : Ok _ = Ok _ |- _ => injection H; clear H; intros; subst
  | H : deref _ = Ok _ |- _ => apply deref_ok in H
  | H : dty _ = Ok _ |- _ => apply deref_ok in H
  | H : child _ _ = Ok _ |- _ => apply child_ok in H
  | H : (if ?b then _ else _) = Ok _ |- _ => destruct b eqn:?
  | H : (let (_, _) := ?p in _) = Ok _ |- _ => destruct p eqn:?
  end.
Ltac kids cs := repeat match goal with
  | H : nth_error (ast_children (Ast _ _ cs)) _ = Some _ |- _ => cbn [ast_children] in H
  | H : nth_error cs 0 = Some _ |- _ => destruct cs as [| ? cs]; cbn [nth_error] in H; [discriminate H | injection H as ->]
  | H : nth_error (_ :: _) 0 = Some _ |- _ => cbn [nth_error] in H; injection H as ->
  | H : nth_error (_ :: cs) 1 = Some _ |- _ => destruct cs as [| ? cs]; cbn [nth_error] in H; [discriminate H | injection H as ->]
  | H : nth_error (_ :: _ :: _) 1 = Some _ |- _ => cbn [nth_error] in H; injection H as ->
  | H : nth_error (_ :: _ :: cs) 2 = Some _ |- _ => destruct cs as [| ? cs]; cbn [nth_error] in H; [discriminate H | injection H as ->]
  end.
Lemma nth0 {A} (l : list A) x : nth_error l 0 = Some x -> exists r, l = x :: r.
Proof. destruct l; cbn; intros H; [discriminate |]. injection H as ->. eauto. Qed.
Lemma nth1 {A} (l : list A) a x : nth_error (a :: l) 1 = Some x -> exists r, l = x :: r.
Proof. apply nth0. Qed.

Lemma nth2 {A} (l : list A) a b x : nth_error (a :: b :: l) 2 = Some x -> exists r, l = x :: r.
Proof. apply nth0. Qed.

(** * Kinds of types *)
Lemma isobject_spec d : vclean d = true -> dtype_isobject d = true -> object_type d.
Proof. destruct d; cbn; intros; try discriminate; auto; lia. Qed.
Lemma isobject_false d : vclean d = true -> dtype_isobject d = false -> ~ object_type d.
Proof. destruct d; cbn; intros; try discriminate; auto; lia. Qed.
Lemma isincomplete_false d : dtype_isincomplete d = false -> ~ incomplete d.
Proof. destruct d; cbn; intros; try discriminate; auto; lia. Qed.
Lemma isincomplete_true d : dtype_isincomplete d = true -> incomplete d.
Proof. destruct d; cbn; intros; try discriminate; auto; lia. Qed.
Lemma isarithmetic_integer d : vclean d = true -> dtype_isarithmetic d = true -> exists r u, promotes d r u.
Proof.
  destruct d; cbn; intros C H; try discriminate.
  - exists RInt, false. constructor.
  - exists RInt, false. apply (promotes_integer RInt false).
  - exists RInt, true. apply (promotes_integer RInt true).
  - exists RLong, false. apply (promotes_integer RLong false).
  - exists RLong, true. apply (promotes_integer RLong true).
  - exists RLongLong, false. apply (promotes_integer RLongLong false).
  - exists RLongLong, true. apply (promotes_integer RLongLong true).
Qed.
Lemma isinteger_integer d : vclean d = true -> dtype_isinteger d = true -> integer d.
Proof. intros C H. apply isarithmetic_integer; [assumption |]. now destruct d. Qed.
Lemma isscalar_scalar d : vclean d = true -> dtype_isscalar d = true -> scalar d.
Proof.
  intros C H. destruct (is_pointer d) eqn:P.
  - destruct d; try discriminate. right. eauto.
  - left. apply isarithmetic_integer; [assumption |]. now destruct d.
Qed.
Lemma is_pointer_true d : is_pointer d = true -> exists t, d = DTYPE_POINTER t.
Proof. destruct d; cbn; try discriminate. eauto. Qed.
Lemma isassignable_spec d o : dtype_isassignable d o = true -> assignable d o.
Proof.
  intros H. unfold assignable. unfold dtype_isassignable in H. apply orb_prop in H as [H | H].
  - apply andb_prop in H as [H1 H2]. left. split; now apply arithmetic_spec.
  - right. left. destruct d; try discriminate. destruct o; try discriminate. exists d, o. repeat split.
    apply orb_prop in H as [H | H]; [apply orb_prop in H as [H | H] |].
    + left. now apply equals_shape.
    + right. left. now destruct d.
    + right. right. now destruct o.
Qed.
Lemma assignable_sym d o : assignable d o -> assignable o d.
Proof.
  intros [(A & B) | [(a & b & -> & -> & H) | (A & B & H)]].
  - left. auto.
  - right. left. exists b, a. unfold same_type in *. intuition congruence.
  - right. right. unfold same_type in *. auto.
Qed.

(** * Conversions *)
Lemma decay_value s : value_of s (decay s).
Proof.
  unfold value_of, decay, convert_to_ptr_if_array, convert_to_ptr_if_function, new_dtyped_srt, node.
  destruct (srt_dtype s) as [d |] eqn:E.
  - destruct d; try (rewrite E; reflexivity). reflexivity.
  - rewrite E. reflexivity.
Qed.
Lemma decay_clean s d : srt_dtype s = Some d -> vclean d = true -> exists d', srt_dtype (decay s) = Some d' /\ vclean d' = true.
Proof.
  intros H C. pose proof (decay_value s) as V. unfold value_of in V. rewrite H in V.
  destruct d; rewrite V; eauto; cbn; eexists; split; reflexivity || assumption.
Qed.
Lemma cast_assigned d dv v : srt_dtype v = Some dv -> assigned_to d v (if dtype_equals dv d then v else cast d v).
Proof.
  intros H. exists dv. split; [assumption |]. destruct (dtype_equals dv d) eqn:E.
  - left. split; [now apply equals_shape | reflexivity].
  - right. split; [| reflexivity]. intros F. apply equals_shape in F. congruence.
Qed.
Lemma cast_assigned' d dv v : srt_dtype v = Some dv -> assigned_to d v (if dtype_equals d dv then v else cast d v).
Proof. rewrite equals_sym. apply cast_assigned. Qed.
Lemma cast_clean (b : bool) d dv v : srt_dtype v = Some dv -> vclean d = true -> vclean dv = true ->
  exists d', srt_dtype (if b then v else cast d v) = Some d' /\ vclean d' = true.
Proof. intros H C D. destruct b; [eauto |]. exists d. auto. Qed.
Lemma promotion_type s d r u : has s d -> promotes d r u -> has (perform_integer_promotion s) (integer_type r u) /\ promoted s (perform_integer_promotion s) (integer_type r u).
Proof.
  intros H P. unfold has in H.
  assert (X : (d = DTYPE_CHAR /\ r = RInt /\ u = false /\ perform_integer_promotion s = cast DTYPE_INT s) \/ (d = integer_type r u /\ perform_integer_promotion s = s)).
  { unfold perform_integer_promotion. rewrite H. inversion P; subst; [now left | right]. destruct r, u; cbn; auto. }
  destruct X as [(-> & -> & -> & ->) | (-> & ->)].
  - split; [reflexivity |]. exists DTYPE_CHAR, RInt, false. repeat split; auto. exists DTYPE_CHAR, RInt, false. repeat split; auto. right. split; [discriminate | reflexivity].
  - split; [assumption |]. exists (integer_type r u), r, u. repeat split; auto. exists (integer_type r u), r, u. repeat split; auto.
Qed.
Lemma promoted_spec s d : srt_dtype s = Some d -> vclean d = true -> dtype_isarithmetic d = true ->
  exists d', srt_dtype (perform_integer_promotion s) = Some d' /\ clean d' = true /\ promoted s (perform_integer_promotion s) d'.
Proof.
  intros H C A. destruct (isarithmetic_integer _ C A) as (r & u & P). destruct (promotion_type _ _ _ _ H P) as (X & Y).
  exists (integer_type r u). split; [assumption |]. split; [now destruct r, u | assumption].
Qed.
Lemma to_integer_same d s : has s d -> integer d -> to_integer d s s.
Proof. intros H (r & u & P). exists d, r, u. auto. Qed.
Lemma to_integer_cast d d0 s : has s d0 -> integer d0 -> d0 <> d -> to_integer d s (cast d s).
Proof. intros H (r & u & P) N. exists d0, r, u. auto. Qed.
Lemma integer_type_integer r u : integer (integer_type r u).
Proof. exists r, u. constructor. Qed.
Lemma balanced_spec l r dl dr : srt_dtype l = Some dl -> srt_dtype r = Some dr -> vclean dl = true -> vclean dr = true ->
  dtype_isarithmetic dl = true -> dtype_isarithmetic dr = true ->
  forall l' r', perform_usual_arithmetic_conversion l r = (l', r') ->
  exists d, srt_dtype l' = Some d /\ srt_dtype r' = Some d /\ clean d = true /\ balanced_to l r l' r' d.
Proof.
  intros Hl Hr Cl Cr Al Ar l' r' E.
  destruct (isarithmetic_integer _ Cl Al) as (r1 & u1 & P1). destruct (isarithmetic_integer _ Cr Ar) as (r2 & u2 & P2).
  destruct (promotion_type _ _ _ _ Hl P1) as (X1 & Y1). destruct (promotion_type _ _ _ _ Hr P2) as (X2 & Y2).
  pose proof (usual_conversion l r dl dr r1 u1 r2 u2 Hl Hr P1 P2) as U. cbn zeta in U. rewrite E in U. destruct U as (U1 & U2).
  exists (common_type r1 u1 r2 u2). split; [assumption |]. split; [assumption |]. split; [destruct r1, u1, r2, u2; reflexivity |].
  exists r1, u1, r2, u2, (perform_integer_promotion l), (perform_integer_promotion r). split; [assumption |]. split; [assumption |]. split; [reflexivity |].
  unfold perform_usual_arithmetic_conversion in E. rewrite Hl, Hr, Al, Ar in E. cbn [negb orb] in E. cbv zeta in E. rewrite X1, X2 in E.
  clear - X1 X2 E. set (pl := perform_integer_promotion l) in *. set (pr := perform_integer_promotion r) in *. clearbody pl pr.
  destruct r1, u1, r2, u2; cbn in E; injection E as <- <-;
    (split; [first [apply to_integer_same; [assumption | apply integer_type_integer] | eapply to_integer_cast; [eassumption | apply integer_type_integer | discriminate]]
            |first [apply to_integer_same; [assumption | apply integer_type_integer] | eapply to_integer_cast; [eassumption | apply integer_type_integer | discriminate]]]).
Qed.
(** when the operands are converted first and their types checked after that *)
Lemma not_arithmetic_unchanged l r dl dr l' r' : srt_dtype l = Some dl -> srt_dtype r = Some dr -> perform_usual_arithmetic_conversion l r = (l', r') ->
  dtype_isarithmetic dl && dtype_isarithmetic dr = false -> l' = l /\ r' = r.
Proof.
  intros Hl Hr E A. unfold perform_usual_arithmetic_conversion in E. rewrite Hl, Hr in E.
  destruct (dtype_isarithmetic dl), (dtype_isarithmetic dr); try discriminate; cbn in E; injection E as <- <-; auto.
Qed.
Lemma balanced_after l r dl0 dr0 l' r' dl dr : srt_dtype l = Some dl0 -> srt_dtype r = Some dr0 -> vclean dl0 = true -> vclean dr0 = true ->
  perform_usual_arithmetic_conversion l r = (l', r') -> srt_dtype l' = Some dl -> srt_dtype r' = Some dr ->
  dtype_isarithmetic dl = true -> dtype_isarithmetic dr = true ->
  srt_dtype r' = Some dl /\ clean dl = true /\ balanced_to l r l' r' dl.
Proof.
  intros Hl Hr Cl Cr E El Er Al Ar.
  destruct (dtype_isarithmetic dl0 && dtype_isarithmetic dr0) eqn:B.
  - apply andb_prop in B as [B1 B2]. destruct (balanced_spec _ _ _ _ Hl Hr Cl Cr B1 B2 _ _ E) as (d & D1 & D2 & D3 & D4).
    assert (d = dl) by congruence. subst. auto.
  - destruct (not_arithmetic_unchanged _ _ _ _ _ _ Hl Hr E B) as (-> & ->). rewrite Hl in El. rewrite Hr in Er.
    injection El as ->. injection Er as ->. now rewrite Al, Ar in B.
Qed.
Lemma modifiable_spec s d : srt_dtype s = Some d -> vclean d = true -> srt_ismodifiable s = true -> modifiable s /\ clean d = true.
Proof.
  intros H C M. unfold srt_ismodifiable in M. rewrite H in M. destruct (negb (dtype_isobject d) || is_array d) eqn:E; [discriminate |].
  apply orb_false_elim in E as [E1 E2]. apply negb_false_iff in E1. split.
  - split.
    + exists d. split; [assumption |]. split; [now apply isobject_spec |]. intros e n ->. discriminate.
    + unfold srt_is in M. apply orb_prop in M as [M | M]; [apply orb_prop in M as [M | M] |];
        apply internal_srttype_dec_bl in M; rewrite M; cbn; tauto.
  - apply vclean_clean; [assumption |]. intros t ->. discriminate.
Qed.
Lemma find_member_spec ms n d : find_member ms n = Some d -> member_of ms n d.
Proof.
  induction ms as [| [[m e] o] ms IH]; cbn; [discriminate |]. destruct (name_eqb m n) eqn:E.
  - apply name_eqb_eq in E as ->. intros H. injection H as ->. constructor.
  - intros H. constructor; [| auto]. intros ->. assert (name_eqb n n = true) by now apply name_eqb_eq. congruence.
Qed.
Lemma find_member_clean ms s a n d : clean (DTYPE_USTRUCT ms s a) = true -> find_member ms n = Some d -> clean d = true.
Proof.
  cbn. induction ms as [| [[m e] o] ms IH]; cbn; [discriminate |]. intros C H. apply andb_prop in C as [C1 C2].
  destruct (name_eqb m n); [congruence | auto].
Qed.

(** * Expressions *)
(** only a name can have a typedef for its type *)
Definition typed (s : srt) : Prop := exists d, has s d /\ vclean d = true /\ (srt_type s <> SRT_IDENT_EXPR -> clean d = true).
Record expr_ok (st : rst) (a : ast) (s : srt) (st' : rst) : Prop := {
  eo_elab : elab (env_of st) a s (env_of st');
  eo_typed : typed s;
  eo_inv : inv st';
  eo_quiet : quiet st st'
}.
Record type_ok (st : rst) (a : ast) (d : dtype) (st' : rst) : Prop := {
  to_names : type_name (env_of st) a d (env_of st');
  to_clean : clean d = true;
  to_inv : inv st';
  to_quiet : quiet st st'
}.

Section Expr.
Variable k : knot.
Hypothesis KE : forall a st s st', inv st -> k_expr k a st = Ok (Some s, st') -> expr_ok st a s st'.
Hypothesis KT : forall a st d st', inv st -> k_tyname k a st = Ok (Some d, st') -> type_ok st a d st'.

Lemma expr_at_ok a i st s st' : inv st -> expr_at k a i st = Ok (Some s, st') ->
  exists x, nth_error (ast_children a) i = Some x /\ expr_ok st x s st'.
Proof. intros I H. unfold expr_at in H. rinv. eauto. Qed.

Lemma operands_spec a st l r st' : inv st -> operands k a st = Ok (Some (l, r), st') ->
  exists x y cs l0 r0 E1 dl dr, ast_children a = x :: y :: cs /\ elab (env_of st) x l0 E1 /\ value_of l0 l
    /\ elab E1 y r0 (env_of st') /\ value_of r0 r /\ srt_dtype l = Some dl /\ vclean dl = true /\ srt_dtype r = Some dr /\ vclean dr = true
    /\ inv st' /\ quiet st st'.
Proof.
  intros I H. unfold operands in H. rinv.
  destruct (expr_at_ok _ _ _ _ _ I M) as (x & X & [X1 (d1 & X2 & X3 & _) X4 X5]).
  destruct (expr_at_ok _ _ _ _ _ X4 M0) as (y & Y & [Y1 (d2 & Y2 & Y3 & _) Y4 Y5]).
  destruct (decay_clean _ _ X2 X3) as (e1 & P1 & P2). destruct (decay_clean _ _ Y2 Y3) as (e2 & Q1 & Q2).
  destruct (nth0 _ _ X) as (q & R). rewrite R in Y. destruct (nth1 _ _ _ Y) as (q' & ->).
  exists x, y, q', a0, a1, (env_of st0), e1, e2. splits; auto using decay_value. quiet.
Qed.

Ltac ops H I := destruct (operands_spec _ _ _ _ _ I H) as (x & y & cs & l0 & r0 & E1 & dl & dr & HC & HX & HVX & HY & HVY & TL & CL & TR & CR & I' & Q').
Lemma typed_node t d cs : clean d = true -> typed (node t d cs).
Proof. intros H. exists d. split; [reflexivity |]. auto using clean_vclean. Qed.
Lemma arithmetic_clean d : vclean d = true -> dtype_isarithmetic d = true -> clean d = true.
Proof. now destruct d. Qed.
Lemma pointer_clean t : vclean (DTYPE_POINTER t) = true -> clean t = true.
Proof. auto. Qed.
Ltac node_typed := apply typed_node; first [reflexivity | assumption | apply arithmetic_clean; assumption | (apply vclean_clean; [assumption | intros ? ->; discriminate])].
Lemma one_operand a i st s st' : inv st -> expr_at k a i st = Ok (Some s, st') ->
  exists x d, nth_error (ast_children a) i = Some x /\ elab (env_of st) x s (env_of st') /\ srt_dtype s = Some d /\ vclean d = true /\ inv st' /\ quiet st st'.
Proof. intros I H. destruct (expr_at_ok _ _ _ _ _ I H) as (x & X & [X1 (d & X2 & X3 & _) X4 X5]). exists x, d. auto 10. Qed.

Lemma assignment_ok a st s st' : inv st -> ast_type a = AST_ASSIGN_EXPR ->
  resolve_assignment_expr k a st = Ok (Some s, st') -> expr_ok st a s st'.
Proof.
  intros I T H. unfold resolve_assignment_expr in H. rinv. unfold convert_to_ptr in M3. rinv.
  destruct (one_operand _ _ _ _ _ I M) as (x & dx & NX & EX & TX & CX & IX & QX).
  destruct (one_operand _ _ _ _ _ IX M0) as (y & dy & NY & EY & TY & CY & IY & QY).
  destruct (decay_clean _ _ TY CY) as (e & TE & CE). same_dty. bools.
  destruct (modifiable_spec _ _ TX CX Heqb) as (MM & CM).
  destruct a as [t p c]. cbn [ast_type ast_children] in T, NX, NY. subst t. destruct (nth0 _ _ NX) as (q & ->). destruct (nth1 _ _ _ NY) as (q' & ->).
  split; [| node_typed | assumption | quiet].
  eapply elab_assign; try eassumption.
  - apply decay_value.
  - now apply isassignable_spec.
  - now apply cast_assigned.
Qed.
Lemma compound_ok a st s st' t' : inv st -> In (ast_type a, t') compound_operators ->
  resolve_compound_assignment_expr k a st = Ok (Some s, st') -> expr_ok st a s st'.
Proof.
  intros I T H. unfold resolve_compound_assignment_expr in H. rinv.
  assert (B : binop_of_compound (ast_type a) = Some t').
  { cbn in T. repeat (destruct T as [T | T]; [injection T as <- <-; reflexivity |]). destruct T. }
  rewrite B in H. apply assignment_ok in H; [| assumption | reflexivity]. destruct H as [H1 H2 H3 H4]. split; auto.
  destruct a as [t p c]. cbn [ast_type ast_children] in T, M, M0. destruct (nth0 _ _ M) as (q & ->). destruct (nth1 _ _ _ M0) as (q' & ->).
  eapply elab_compound; eassumption.
Qed.
Lemma conditional_ok a st s st' : inv st -> ast_type a = AST_COND_EXPR -> resolve_conditional_expr k a st = Ok (Some s, st') -> expr_ok st a s st'.
Proof.
  intros I T H. unfold resolve_conditional_expr in H. apply rbind_some in H as (c & st1 & MC & H). cbv zeta in H.
  apply bind_ok in H as (dc & DC & H). destruct (negb (dtype_isscalar dc)) eqn:SC; [discriminate |].
  apply rbind_some in H as (l & st2 & ML & H). apply rbind_some in H as (r & st3 & MR & H).
  destruct (one_operand _ _ _ _ _ I MC) as (x & dx & NX & EX & TX & CX & IX & QX).
  destruct (one_operand _ _ _ _ _ IX ML) as (y & dy & NY & EY & TY & CY & IY & QY).
  destruct (one_operand _ _ _ _ _ IY MR) as (z & dz & NZ & EZ & TZ & CZ & IZ & QZ).
  destruct (decay_clean _ _ TX CX) as (ex & TEX & CEX). destruct (decay_clean _ _ TY CY) as (ey & TEY & CEY). destruct (decay_clean _ _ TZ CZ) as (ez & TEZ & CEZ).
  destruct a as [t p cs]. cbn [ast_type ast_children] in T, NX, NY, NZ. subst t. destruct (nth0 _ _ NX) as (q & ->). destruct (nth1 _ _ _ NY) as (q' & ->).
  destruct (nth2 _ _ _ _ NZ) as (q'' & ->).
  unfold dty in DC. rewrite TEX in DC. injection DC as <-. bools. pose proof (isscalar_scalar _ CEX SC) as SX.
  apply bind_ok in H as (dl & DL & H). apply bind_ok in H as (dr & DR & H).
  unfold dty in DL, DR. rewrite TEY in DL. rewrite TEZ in DR. injection DL as <-. injection DR as <-.
  destruct (dtype_isarithmetic ey && dtype_isarithmetic ez) eqn:A.
  - bools. destruct (perform_usual_arithmetic_conversion (decay l) (decay r)) as [l' r'] eqn:U.
    destruct (balanced_spec _ _ _ _ TEY TEZ CEY CEZ H0 H1 _ _ U) as (d & D1 & D2 & D3 & D4). rinv. same_dty.
    split; [| node_typed | assumption | quiet].
    eapply elab_conditional; eauto using decay_value.
  - destruct (is_pointer ey && is_pointer ez && dtype_iscompatible ey ez) eqn:P.
    + bools. rinv. split; [| node_typed | assumption | quiet].
      eapply elab_conditional_same; eauto using decay_value.
      * now apply equals_shape.
      * left. now apply is_pointer_true.
    + destruct (is_struct ey && is_struct ez && dtype_equals ey ez) eqn:S; [| discriminate]. bools. rinv.
      split; [| node_typed | assumption | quiet].
      eapply elab_conditional_same; eauto using decay_value.
      * now apply equals_shape.
      * right. now destruct ey.
Qed.
Lemma logical_ok a st s st' t' : inv st -> (ast_type a, t') = (AST_LOR_EXPR, SRT_LOR_EXPR) \/ (ast_type a, t') = (AST_LAND_EXPR, SRT_LAND_EXPR) ->
  resolve_logical_expr k a st = Ok (Some s, st') -> expr_ok st a s st'.
Proof.
  intros I T H. unfold resolve_logical_expr in H. apply rbind_some in H as ([l r] & st1 & M & H).
  ops M I.
  assert (H' : (do dl <- dty l; do dr <- dty r;
      if dtype_isscalar dl && dtype_isscalar dr then rok (new_dtyped_srt t' DTYPE_INT [l; r]) st1 else rerr st1) = Ok (Some s, st')).
  { unfold ast_is in H. destruct T as [T | T]; injection T as T ->; rewrite T in H; exact H. }
  clear H. rinv. same_dty. bools. split; [| node_typed | assumption | quiet].
  destruct a as [t p c]. cbn in *. subst c. eapply elab_logical; eauto using isscalar_scalar.
Qed.
(** operators that convert both operands and then check that they are integers *)
Lemma integer_arith d : dtype_isinteger d = true -> dtype_isarithmetic d = true.
Proof. now destruct d. Qed.
Lemma integer_operator_ok (test : dtype -> bool) (TA : forall d, test d = true -> dtype_isarithmetic d = true) a st l r st' l' r' t' dl dr :
  inv st -> In (ast_type a, t') integer_operators -> operands k a st = Ok (Some (l, r), st') ->
  perform_usual_arithmetic_conversion l r = (l', r') -> srt_dtype l' = Some dl -> srt_dtype r' = Some dr ->
  negb (test dl) || negb (test dr) = false -> expr_ok st a (new_dtyped_srt t' dl [l'; r']) st'.
Proof.
  intros I T M U EL ER B. rename dl into el, dr into er. ops M I.
  bools. destruct (balanced_after _ _ _ _ _ _ _ _ TL TR CL CR U EL ER (TA _ H) (TA _ H0)) as (P1 & P2 & P3).
  split; [| node_typed | assumption | quiet].
  destruct a as [t p c]. cbn in HC. subst c. eapply elab_binary; eauto.
Qed.
Lemma bitwise_ok a st s st' : inv st -> In (ast_type a) [AST_OR_EXPR; AST_XOR_EXPR; AST_AND_EXPR] ->
  resolve_bitwise_expr k a st = Ok (Some s, st') -> expr_ok st a s st'.
Proof.
  intros I T H. unfold resolve_bitwise_expr in H. apply rbind_some in H as ([l r] & st1 & M & H). cbv beta iota in H.
  destruct (perform_usual_arithmetic_conversion l r) as [l' r'] eqn:U.
  apply bind_ok in H as (t' & T' & H). rinv.
  eapply (integer_operator_ok dtype_isinteger integer_arith); try eassumption.
  cbn in T. destruct T as [T | [T | [T | []]]]; rewrite <- T in *; injection T' as <-; cbn; tauto.
Qed.
Lemma shift_ok a st s st' : inv st -> In (ast_type a) [AST_LSHIFT_EXPR; AST_RSHIFT_EXPR] ->
  resolve_shift_expr k a st = Ok (Some s, st') -> expr_ok st a s st'.
Proof.
  intros I T H. unfold resolve_shift_expr in H. apply rbind_some in H as ([l r] & st1 & M & H). cbv beta iota in H.
  destruct (perform_usual_arithmetic_conversion l r) as [l' r'] eqn:U.
  apply bind_ok in H as (t' & T' & H). rinv.
  eapply (integer_operator_ok dtype_isinteger integer_arith); try eassumption.
  cbn in T. destruct T as [T | [T | []]]; rewrite <- T in *; injection T' as <-; cbn; tauto.
Qed.
Lemma multiplicative_ok a st s st' : inv st -> In (ast_type a) [AST_MUL_EXPR; AST_DIV_EXPR; AST_MOD_EXPR] ->
  resolve_multiplicative_expr k a st = Ok (Some s, st') -> expr_ok st a s st'.
Proof.
  intros I T H. unfold resolve_multiplicative_expr in H. apply rbind_some in H as ([l r] & st1 & M & H). cbv beta iota in H.
  destruct (perform_usual_arithmetic_conversion l r) as [l' r'] eqn:U.
  apply bind_ok in H as (dl & DL & H). apply bind_ok in H as (dr & DR & H). apply deref_ok in DL, DR.
  cbn in T. destruct T as [T | [T | [T | []]]]; rewrite <- T in H; rinv.
  - eapply (integer_operator_ok dtype_isarithmetic (fun d H => H)); try eassumption. rewrite <- T. cbn. tauto.
  - eapply (integer_operator_ok dtype_isarithmetic (fun d H => H)); try eassumption. rewrite <- T. cbn. tauto.
  - eapply (integer_operator_ok dtype_isinteger integer_arith); try eassumption. rewrite <- T. cbn. tauto.
Qed.
Lemma comparison_ok a st l r st' o t' l' r' : inv st -> In (ast_type a, t') comparison_operators -> operands k a st = Ok (Some (l, r), st') ->
  comparable l r = Ok o -> o = Some (l', r') -> expr_ok st a (new_dtyped_srt t' DTYPE_INT [l'; r']) st'.
Proof.
  intros I T M C ->. ops M I. unfold comparable in C. unfold dty in C. rewrite TL, TR in C. cbn in C.
  split; [| node_typed | assumption | quiet].
  destruct a as [t p c]. cbn in HC. subst c.
  destruct (dtype_isarithmetic dl && dtype_isarithmetic dr) eqn:A.
  - bools. injection C as C. destruct (balanced_spec _ _ _ _ TL TR CL CR H H0 _ _ C) as (d & D1 & D2 & D3 & D4).
    eapply elab_compare; eauto.
  - destruct (is_pointer dl && is_pointer dr && dtype_iscompatible dl dr) eqn:P; [| discriminate]. bools. injection C as <- <-.
    destruct (is_pointer_true _ H) as (e & ->). destruct (is_pointer_true _ H1) as (e' & ->).
    eapply elab_compare_pointers; eauto. now apply equals_shape.
Qed.
Lemma equality_ok a st s st' : inv st -> In (ast_type a) [AST_EQUAL_EXPR; AST_NEQUAL_EXPR] ->
  resolve_equality_expr k a st = Ok (Some s, st') -> expr_ok st a s st'.
Proof.
  intros I T H. unfold resolve_equality_expr in H. apply rbind_some in H as ([l r] & st1 & M & H). cbv beta iota in H.
  apply bind_ok in H as (o & C & H). apply bind_ok in H as (t' & T' & H). destruct o as [[l' r'] |]; [| discriminate]. rinv.
  eapply comparison_ok; eauto. cbn in T. destruct T as [T | [T | []]]; rewrite <- T in *; injection T' as <-; cbn; tauto.
Qed.
Lemma relational_ok a st s st' : inv st -> In (ast_type a) [AST_LESS_EXPR; AST_GREATER_EXPR; AST_LESSEQ_EXPR; AST_GREATEREQ_EXPR] ->
  resolve_relational_expr k a st = Ok (Some s, st') -> expr_ok st a s st'.
Proof.
  intros I T H. unfold resolve_relational_expr in H. apply rbind_some in H as ([l r] & st1 & M & H). cbv beta iota in H.
  apply bind_ok in H as (o & C & H). apply bind_ok in H as (t' & T' & H). destruct o as [[l' r'] |]; [| discriminate]. rinv.
  eapply comparison_ok; eauto. cbn in T. destruct T as [T | [T | [T | [T | []]]]]; rewrite <- T in *; injection T' as <-; cbn; tauto.
Qed.
Lemma add_ok a st s st' : inv st -> ast_type a = AST_ADD_EXPR -> resolve_add_expr k a st = Ok (Some s, st') -> expr_ok st a s st'.
Proof.
  intros I T H. unfold resolve_add_expr in H. apply rbind_some in H as ([l r] & st1 & M & H). cbv beta iota in H.
  pose proof M as M'. ops M I. unfold dty in H. rewrite TL, TR in H. cbn [deref bind] in H.
  destruct (dtype_isarithmetic dl && dtype_isarithmetic dr) eqn:A.
  - bools. destruct (perform_usual_arithmetic_conversion l r) as [l' r'] eqn:U.
    destruct (balanced_spec _ _ _ _ TL TR CL CR H0 H1 _ _ U) as (d & D1 & D2 & D3 & D4). rinv. same_dty.
    split; [| node_typed | assumption | quiet].
    destruct a as [t p c]. cbn in *. subst. eapply elab_binary; eauto. cbn. tauto.
  - destruct a as [t p c]. cbn in T, HC. subst.
    destruct (is_pointer dl && dtype_isinteger dr) eqn:P; [| destruct (dtype_isinteger dl && is_pointer dr) eqn:P2]; bools; rinv.
    + destruct (is_pointer_true _ H0) as (e & ->). split; [| node_typed | assumption | quiet].
      eapply elab_pointer_plus; eauto using isinteger_integer.
    + destruct (is_pointer_true _ H1) as (e & ->). split; [| node_typed | assumption | quiet].
      eapply elab_pointer_plus; eauto using isinteger_integer.
Qed.
Lemma subtract_ok a st s st' : inv st -> ast_type a = AST_SUB_EXPR -> resolve_subtract_expr k a st = Ok (Some s, st') -> expr_ok st a s st'.
Proof.
  intros I T H. unfold resolve_subtract_expr in H. apply rbind_some in H as ([l r] & st1 & M & H). cbv beta iota in H.
  pose proof M as M'. ops M I. unfold dty in H. rewrite TL, TR in H. cbn [deref bind] in H.
  destruct (dtype_isarithmetic dl && dtype_isarithmetic dr) eqn:A.
  - bools. destruct (perform_usual_arithmetic_conversion l r) as [l' r'] eqn:U.
    destruct (balanced_spec _ _ _ _ TL TR CL CR H0 H1 _ _ U) as (d & D1 & D2 & D3 & D4). rinv. same_dty.
    split; [| node_typed | assumption | quiet].
    destruct a as [t p c]. cbn in *. subst. eapply elab_binary; eauto. cbn. tauto.
  - destruct a as [t p c]. cbn in T, HC. subst.
    destruct (is_pointer dl && dtype_isinteger dr) eqn:P; [| destruct (is_pointer dl && is_pointer dr && dtype_iscompatible dl dr) eqn:P2]; bools; rinv.
    + destruct (is_pointer_true _ H0) as (e & ->). split; [| node_typed | assumption | quiet].
      eapply elab_pointer_minus; eauto using isinteger_integer.
    + destruct (is_pointer_true _ H0) as (e & ->). destruct (is_pointer_true _ H2) as (e' & ->). split; [| node_typed | assumption | quiet].
      eapply elab_pointer_difference; eauto. now apply equals_shape.
Qed.
Lemma cast_ok a st s st' : inv st -> ast_type a = AST_CAST_EXPR -> resolve_cast_expr k a st = Ok (Some s, st') -> expr_ok st a s st'.
Proof.
  intros I T H. unfold resolve_cast_expr in H. rinv. destruct (KT _ _ _ _ I M0) as [N1 N2 N3 N4].
  destruct (one_operand _ _ _ _ _ N3 M1) as (x & dx & NX & EX & TX & CX & IX & QX). same_dty.
  destruct a as [t p cs]. cbn [ast_type ast_children] in T, M, NX. subst t. destruct (nth0 _ _ M) as (q & ->). destruct (nth1 _ _ _ NX) as (q' & ->).
  split; [| node_typed | assumption | quiet].
  eapply elab_cast; eauto. destruct (is_void a0) eqn:V; [left; now destruct a0 |]. right. cbn in Heqb. bools.
  split; apply isscalar_scalar; auto using clean_vclean.
Qed.
Lemma address_ok a st s st' : inv st -> ast_type a = AST_ADDR_EXPR -> resolve_address_expr k a st = Ok (Some s, st') -> expr_ok st a s st'.
Proof.
  intros I T H. unfold resolve_address_expr in H. rinv.
  destruct (expr_at_ok _ _ _ _ _ I M) as (x & NX & [EX (dx & TX & CX & ZX) IX QX]). unfold has in TX. same_dty.
  destruct a as [t p cs]. cbn [ast_type ast_children] in T, NX. subst t. destruct (nth0 _ _ NX) as (q & ->).
  assert (A : addressable a0 /\ clean v = true).
  { destruct (is_function v) eqn:F.
    - destruct v; try discriminate. split; [| exact CX]. left. eexists _, _. exact TX.
    - cbn in Heqb. destruct (srt_is a0 SRT_INDIR_EXPR) eqn:N.
      + apply internal_srttype_dec_bl in N. split; [right; left; assumption |]. apply ZX. congruence.
      + cbn in Heqb. bools. apply internal_srttype_dec_bl in H. split.
        * right. right. split; [assumption |]. exists v. split; [assumption |]. now apply isobject_spec.
        * apply vclean_clean; [assumption |]. intros t ->. discriminate. }
  destruct A as (A & CX'). split; [| apply typed_node; assumption | assumption | quiet].
  eapply elab_address; eauto.
Qed.
Lemma indirection_ok a st s st' : inv st -> ast_type a = AST_INDIR_EXPR -> resolve_indirection_expr k a st = Ok (Some s, st') -> expr_ok st a s st'.
Proof.
  intros I T H. unfold resolve_indirection_expr in H. rinv.
  destruct (one_operand _ _ _ _ _ I M) as (x & dx & NX & EX & TX & CX & IX & QX).
  destruct (decay_clean _ _ TX CX) as (e & TE & CE). same_dty. destruct v; try discriminate. rinv.
  destruct a as [t p cs]. cbn [ast_type ast_children] in T, NX. subst t. destruct (nth0 _ _ NX) as (q & ->).
  split; [| node_typed | assumption | quiet]. eapply elab_indirection; eauto using decay_value.
Qed.
Lemma unary_operator_ok t' a st s st' : inv st -> In (ast_type a, t') [(AST_POS_EXPR, SRT_POS_EXPR); (AST_NEG_EXPR, SRT_NEG_EXPR)] ->
  resolve_sign_expr k t' a st = Ok (Some s, st') -> expr_ok st a s st'.
Proof.
  intros I T H. unfold resolve_sign_expr in H. rinv.
  destruct (one_operand _ _ _ _ _ I M) as (x & dx & NX & EX & TX & CX & IX & QX). same_dty. bools.
  destruct (promoted_spec _ _ TX CX Heqb) as (d & D1 & D2 & D3). same_dty.
  destruct a as [t p cs]. cbn [ast_type ast_children] in T, NX. destruct (nth0 _ _ NX) as (q & ->).
  split; [| node_typed | assumption | quiet]. eapply elab_unary; eauto. cbn in *. tauto.
Qed.
Lemma bitwise_not_ok a st s st' : inv st -> ast_type a = AST_NOT_EXPR -> resolve_bitwise_not_expr k a st = Ok (Some s, st') -> expr_ok st a s st'.
Proof.
  intros I T H. unfold resolve_bitwise_not_expr in H. rinv.
  destruct (one_operand _ _ _ _ _ I M) as (x & dx & NX & EX & TX & CX & IX & QX). same_dty. bools.
  destruct (promoted_spec _ _ TX CX (integer_arith _ Heqb)) as (d & D1 & D2 & D3). same_dty.
  destruct a as [t p cs]. cbn [ast_type ast_children] in T, NX. subst t. destruct (nth0 _ _ NX) as (q & ->).
  split; [| node_typed | assumption | quiet]. eapply elab_unary; eauto. cbn. tauto.
Qed.
Lemma logical_not_ok a st s st' : inv st -> ast_type a = AST_LNOT_EXPR -> resolve_logical_not_expr k a st = Ok (Some s, st') -> expr_ok st a s st'.
Proof.
  intros I T H. unfold resolve_logical_not_expr in H. rinv.
  destruct (one_operand _ _ _ _ _ I M) as (x & dx & NX & EX & TX & CX & IX & QX).
  destruct (decay_clean _ _ TX CX) as (e & TE & CE). same_dty. bools.
  destruct a as [t p cs]. cbn [ast_type ast_children] in T, NX. subst t. destruct (nth0 _ _ NX) as (q & ->).
  split; [| node_typed | assumption | quiet]. eapply elab_not; eauto using decay_value, isscalar_scalar.
Qed.
Lemma sizeof_ok a st s st' : inv st -> ast_type a = AST_SIZEOF_EXPR -> resolve_sizeof_expr k a st = Ok (Some s, st') -> expr_ok st a s st'.
Proof.
  intros I T H. unfold resolve_sizeof_expr in H. rinv.
  - apply ast_is_true in Heqb0. destruct (KT _ _ _ _ I M0) as [N1 N2 N3 N4].
    destruct a as [t p cs]. cbn [ast_type ast_children] in T, M. subst t. destruct (nth0 _ _ M) as (q & ->). bools.
    split; [| exists DTYPE_INT; now cbn | assumption | quiet].
    destruct v as [t pv cv]. eapply elab_sizeof_type; eauto using isincomplete_false; try reflexivity.
    + intros ps r ->. discriminate.
    + cbn. apply nbytes_sizeof.
  - destruct (KE _ _ _ _ I M1) as [N1 (d & N2 & N2' & _) N3 N4]. unfold has in N2. same_dty.
    destruct a as [t p cs]. cbn [ast_type ast_children] in T, M. subst t. destruct (nth0 _ _ M) as (q & ->). bools.
    split; [| exists DTYPE_INT; now cbn | assumption | quiet].
    eapply elab_sizeof_expr; eauto using isincomplete_false; try reflexivity.
    + intros ps r ->. discriminate.
    + cbn. apply nbytes_sizeof.
Qed.
Lemma incdec_ok t' a st s st' : inv st -> In (ast_type a, t') incdec_operators -> resolve_incdec_expr k t' a st = Ok (Some s, st') -> expr_ok st a s st'.
Proof.
  intros I T H. unfold resolve_incdec_expr, convert_to_ptr in H. rinv.
  destruct (one_operand _ _ _ _ _ I M) as (x & dx & NX & EX & TX & CX & IX & QX). same_dty. bools.
  destruct (modifiable_spec _ _ TX CX Heqb) as (MM & CM).
  destruct a as [t p cs]. cbn [ast_type ast_children] in T, NX. destruct (nth0 _ _ NX) as (q & ->).
  split; [| node_typed | assumption | quiet]. eapply elab_incdec; eauto.
  apply andb_false_elim in Heqb0 as [B | B]; bools.
  - left. now apply isinteger_integer.
  - right. now apply is_pointer_true.
Qed.
Lemma subscription_ok a st s st' : inv st -> ast_type a = AST_SUBSC_EXPR -> resolve_subscription_expr k a st = Ok (Some s, st') -> expr_ok st a s st'.
Proof.
  intros I T H. unfold resolve_subscription_expr in H. apply rbind_some in H as ([l r] & st1 & M & H). cbv beta iota in H.
  ops M I. unfold dty in H. rewrite TL, TR in H. cbn [deref bind] in H.
  destruct (_ && _) eqn:B in H; [discriminate |].
  destruct a as [t p cs0]. cbn [ast_type ast_children] in T, HC. subst t cs0.
  destruct (is_pointer dr) eqn:PR.
  - rewrite TR in H. cbn [deref bind] in H. destruct (is_pointer_true _ PR) as (e & ->).
    destruct (negb (dtype_isobject e)) eqn:O; [discriminate |]. rinv. bools.
    assert (dtype_isinteger dl = true). { apply andb_false_elim in B as [B | B]; bools; [now destruct dl | assumption]. }
    pose proof (pointer_clean _ CR) as CE. split; [| node_typed | assumption | quiet].
    eapply elab_subscript; eauto using isobject_spec, clean_vclean, isinteger_integer.
  - rewrite TL in H. cbn [deref bind] in H. destruct dl; try discriminate.
    destruct (negb (dtype_isobject dl)) eqn:O; [discriminate |]. rinv. bools.
    assert (dtype_isinteger dr = true). { apply andb_false_elim in B as [B | B]; bools; [assumption | discriminate]. }
    pose proof (pointer_clean _ CL) as CE. split; [| node_typed | assumption | quiet].
    eapply elab_subscript; eauto using isobject_spec, clean_vclean, isinteger_integer.
Qed.
Lemma arguments_ok ps : forall args st ss st', length ps = length args -> inv st -> forallb (fun p => clean (snd p)) ps = true ->
  rmap (resolve_argument k) (combine ps args) st = Ok (Some ss, st') ->
  elab_arguments (env_of st) ps args ss (env_of st') /\ inv st' /\ quiet st st'.
Proof.
  induction ps as [| [n d] ps IH]; intros [| a args] st ss st' L I C H; cbn in L; try discriminate.
  - cbn in H. rinv. splits; auto. constructor.
  - cbn [combine rmap] in H. apply bind_ok in H as ([o st1] & M & H). apply bind_ok in H as ([os st2] & M2 & H).
    injection H as H <-. destruct o as [v |]; [| discriminate]. destruct os as [vs |]; [| discriminate]. injection H as <-.
    cbn in C. apply andb_prop in C as [C1 C2]. unfold resolve_argument in M. rinv.
    destruct (KE _ _ _ _ I M0) as [N1 (dx & N2 & N2' & _) N3 N4].
    destruct (decay_clean _ _ N2 N2') as (e & TE & CE). same_dty. bools.
    destruct (IH args _ _ _ ltac:(lia) N3 C2 M2) as (R1 & R2 & R3).
    splits; auto; [| quiet].
    eapply elab_argument; eauto using decay_value, isassignable_spec, cast_assigned'.
Qed.
Lemma call_ok a st s st' : inv st -> ast_type a = AST_CALL_EXPR -> resolve_call_expr k a st = Ok (Some s, st') -> expr_ok st a s st'.
Proof.
  intros I T H. unfold resolve_call_expr in H. apply rbind_some in H as (l & st1 & M & H). cbv zeta in H. apply bind_ok in H as (dl & DL & H).
  destruct (one_operand _ _ _ _ _ I M) as (x & dx & NX & EX & TX & CX & IX & QX).
  destruct (decay_clean _ _ TX CX) as (e & TE & CE). unfold dty in DL. rewrite TE in DL. injection DL as ->.
  destruct dl; try discriminate. destruct dl; try discriminate. rinv. unfold resolve_argument_expr_list in M1. rinv. bools.
  apply Nat.eqb_eq in Heqb. pose proof (pointer_clean _ CE) as CF. cbn in CF. apply andb_prop in CF as [CP CRet].
  destruct v as [tv pv av]. destruct (arguments_ok _ _ _ _ _ Heqb IX CP M2) as (R1 & R2 & R3).
  destruct a as [t p cs]. cbn [ast_type ast_children] in T, NX, M0. subst t. destruct (nth0 _ _ NX) as (q & ->). destruct (nth1 _ _ _ M0) as (q' & ->).
  split; [| node_typed | assumption | quiet]. eapply elab_call; eauto using decay_value.
Qed.
Lemma member_ok a st s st' : inv st -> In (ast_type a) [AST_MEMBER_EXPR; AST_TOMEMBER_EXPR] -> resolve_member_like_expr k a st = Ok (Some s, st') -> expr_ok st a s st'.
Proof.
  intros I T H. unfold resolve_member_like_expr in H. apply rbind_some in H as (l & st1 & M & H). apply bind_ok in H as (dl & DL & H). cbv zeta in H.
  destruct (one_operand _ _ _ _ _ I M) as (x & dx & NX & EX & TX & CX & IX & QX). apply deref_ok in DL. same_dty.
  destruct (ast_is a AST_MEMBER_EXPR && negb (is_struct dl)) eqn:B1; [discriminate |].
  destruct (ast_is a AST_TOMEMBER_EXPR && _) eqn:B2 in H; [discriminate |].
  apply bind_ok in H as ([l' sd] & ML & H). apply bind_ok in H as (o & MO & H). destruct o as [d |]; [| discriminate].
  apply bind_ok in H as (m & MM & H). apply child_ok in MM. apply rbind_some in H as (r & st2 & MR & H).
  unfold resolve_member_name_expr in MR. destruct d; try discriminate. apply bind_ok in MR as (n & MN & MR).
  destruct (find_member members n) as [md |] eqn:FM; [| discriminate]. rinv.
  match goal with H : srt_dtype (new_identifier_srt _ _ _) = Some _ |- _ => injection H as <- end.
  assert (MO' : members_of (r_tags st') sd members /\ clean (DTYPE_USTRUCT members nbytes alignment) = true \/ ~ vclean sd = true).
  { destruct (vclean sd) eqn:VS; [left | right; congruence]. destruct sd; try discriminate; [apply Ok_inj in MO | injection MO as -> -> ->].
    - split; [econstructor; eassumption |]. apply (tag_search_ok _ _ _ (proj1 (proj2 IX))) in MO. exact MO.
    - split; [constructor | exact VS]. }
  destruct a as [t p cs]. cbn [ast_type ast_children] in T, NX, MM. destruct (nth0 _ _ NX) as (q & ->). destruct (nth1 _ _ _ MM) as (q' & ->).
  destruct m as [tm pm cm]. unfold ast_name in MN. cbn in MN. destruct pm; try discriminate. injection MN as ->.
  assert (CS : vclean sd = true) by (destruct dl; try discriminate; injection ML as <- <-; [now apply clean_vclean | exact CX | exact CX]).
  destruct MO' as [(MO1 & MO2) | MO']; [| contradiction].
  pose proof (find_member_clean _ _ _ _ _ MO2 FM) as CM. apply find_member_spec in FM.
  split; [| node_typed | assumption | quiet].
  cbn in T. destruct T as [<- | [<- | []]]; cbn in B1, B2; bools.
  - destruct dl; try discriminate; injection ML as <- <-; eapply elab_member; eauto.
  - destruct dl; try discriminate. injection ML as <- <-. eapply elab_arrow; eauto.
Qed.
Lemma identifier_ok a st s st' : inv st -> ast_type a = AST_IDENT_EXPR -> resolve_identifier_expr a st = Ok (Some s, st') -> expr_ok st a s st'.
Proof.
  intros I T H. unfold resolve_identifier_expr in H. apply bind_ok in H as (n & N & H). destruct (sym_search (r_syms st) n) as [y |] eqn:S; [| discriminate].
  destruct a as [t p cs]. cbn [ast_type] in T. subst t. unfold ast_name in N. cbn in N. destruct p; try discriminate. injection N as ->.
  assert (C : vclean (sy_dtype y) = true) by (eapply sym_search_ok; [exact (proj1 I) | eassumption]).
  destruct (sy_kind y) eqn:K; rinv.
  - split; auto; [| exists (sy_dtype y); splits; [reflexivity | assumption | intros X; now destruct X]]. eapply elab_variable; eauto. congruence.
  - split; auto; [| exists (sy_dtype y); splits; [reflexivity | assumption | intros X; now destruct X]]. eapply elab_variable; eauto. congruence.
  - split; auto; [| exists DTYPE_INT; now cbn]. eapply elab_enum_constant; eauto.
Qed.
Lemma primary_ok a st s st' : inv st -> In (ast_type a) [AST_IDENT_EXPR; AST_INT_EXPR; AST_CHAR_EXPR; AST_STRING_EXPR] ->
  resolve_primary_expr a st = Ok (Some s, st') -> expr_ok st a s st'.
Proof.
  intros I T H. unfold resolve_primary_expr in H. cbn [In] in T. destruct T as [T | [T | [T | [T | []]]]]; rewrite <- T in H.
  - now apply identifier_ok.
  - unfold resolve_integer_expr in H. rinv. destruct a as [t p cs]. unfold ast_iliteral in M. cbn in *. subst t. destruct p; try discriminate. injection M as ->.
    split; auto; [now constructor |]. exists (constant_type v). unfold has. cbn. unfold constant_type. now destruct (itype v).
  - unfold resolve_character_expr in H. rinv. destruct a as [t p cs]. unfold ast_iliteral in M. cbn in *. subst t. destruct p; try discriminate. injection M as ->.
    split; auto; [now constructor |]. exists DTYPE_INT. now cbn.
  - unfold resolve_string_expr in H. rinv. destruct a as [t p cs]. unfold ast_sliteral in M. cbn in *. subst t. destruct p; try discriminate. injection M as ->.
    set (decl := new_srt SRT_DECL_LIST _). assert (SD : string_of decl = Some (r_sid st + 1, v)) by (cbn; now rewrite Z.eqb_refl).
    assert (EN : env_of (set_tu (r_tu st ++ [decl]) (set_sid (r_sid st + 1) st)) = with_string (env_of st) v).
    { unfold env_of, with_string. cbn [r_syms r_tags r_tu set_tu set_sid e_syms e_tags e_strings]. rewrite string_decls_app. cbn [string_decls flat_map]. rewrite SD, map_app. reflexivity. }
    destruct I as (I1 & I2 & I3 & I4). split.
    + rewrite EN. apply elab_string; [reflexivity | exact I4].
    + eexists. now cbn.
    + split; [exact I1 | split; [exact I2 |]]. unfold strings_ok. rewrite EN. cbn [with_string e_strings r_tu r_sid set_tu set_sid]. rewrite string_decls_app, I3, numbered_app, length_app_Z. cbn [string_decls flat_map].
      rewrite SD, I4. cbn [length app numbered]. split; [do 3 f_equal; lia | lia].
    + split; try reflexivity. split; [eexists; split; [reflexivity | cbn [forallb]; unfold hidden, string_decl; now rewrite SD, Bool.orb_true_r] |]. cbn. destruct (r_scope st); [| exact Logic.I]. exists []. now rewrite app_nil_r.
Qed.
(** one step of the knot *)
Lemma expr_step a st s st' : inv st -> resolve_expr k a st = Ok (Some s, st') -> expr_ok st a s st'.
Proof.
  intros I H. unfold resolve_expr in H.
  destruct (ast_type a) eqn:T; try discriminate H;
  first
  [ now apply assignment_ok | now apply conditional_ok
  | (eapply compound_ok; [assumption | rewrite T; cbn; tauto | assumption])
  | (eapply logical_ok; [assumption | rewrite T; (left; reflexivity) || (right; reflexivity) | assumption])
  | (apply bitwise_ok; [assumption | rewrite T; cbn; tauto | assumption])
  | (apply equality_ok; [assumption | rewrite T; cbn; tauto | assumption])
  | (apply relational_ok; [assumption | rewrite T; cbn; tauto | assumption])
  | (apply shift_ok; [assumption | rewrite T; cbn; tauto | assumption])
  | (apply multiplicative_ok; [assumption | rewrite T; cbn; tauto | assumption])
  | (unfold resolve_additive_expr in H; rewrite T in H; now apply add_ok)
  | (unfold resolve_additive_expr in H; rewrite T in H; now apply subtract_ok)
  | now apply cast_ok
  | (apply primary_ok; [assumption | rewrite T; cbn; tauto | assumption])
  | (unfold resolve_unary_expr in H; rewrite T in H;
     first [now apply address_ok | now apply indirection_ok | now apply bitwise_not_ok | now apply logical_not_ok | now apply sizeof_ok
           | (eapply incdec_ok; [assumption | rewrite T; cbn; tauto | eassumption])
           | (eapply unary_operator_ok; [assumption | rewrite T; cbn; tauto | eassumption])])
  | (unfold resolve_postfix_expr in H; rewrite T in H;
     first [now apply subscription_ok | now apply call_ok | (apply member_ok; [assumption | rewrite T; cbn; tauto | assumption])
           | (eapply incdec_ok; [assumption | rewrite T; cbn; tauto | eassumption])]) ].
Qed.
End Expr.
