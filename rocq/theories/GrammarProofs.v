(** Fuel does not matter to the parser; running it as far as needed. *)
From Verif Require Import Base LiteralModel LexerModel AstModel ParserModel ParserProofs.
Open Scope nat_scope.

Definition below (r r' : nt -> pst -> pres) : Prop := forall n st x, r n st = Ok x -> r' n st = Ok x.

Section Mono.
Variables r r' : nt -> pst -> pres.
Hypothesis B : below r r'.

Lemma bind_mono (A C : Type) (m m' : res A) (k k' : A -> res C) x :
  (forall y, m = Ok y -> m' = Ok y) -> (forall y x, k y = Ok x -> k' y = Ok x) -> bind m k = Ok x -> bind m' k' = Ok x.
Proof. intros M K H. destruct m as [y| | | |]; cbn in H; try discriminate. rewrite (M y eq_refl). cbn. apply K, H. Qed.
Lemma pbind_mono m m' (k k' : ast -> pst -> pres) x :
  (forall y, m = Ok y -> m' = Ok y) -> (forall a st x, k a st = Ok x -> k' a st = Ok x) -> pbind m k = Ok x -> pbind m' k' = Ok x.
Proof. intros M K. unfold pbind. apply bind_mono; auto. intros [[a|] st] y; auto. Qed.
Lemma consume_mono t st (k k' : pst -> pres) x : (forall st x, k st = Ok x -> k' st = Ok x) -> consume t st k = Ok x -> consume t st k' = Ok x.
Proof. intros K. unfold consume. apply bind_mono; auto. intros y z. destruct (ctype_eqb (ttype y) t); auto. Qed.

Ltac mono :=
  repeat first
  [ assumption
  | match goal with |- r ?n ?st = Ok _ -> _ => apply B end
  | match goal with |- ?x = ?y -> ?x = ?y => exact (fun H => H) end
  | apply bind_mono; [intros ?|intros ? ?]
  | apply pbind_mono; [intros ?|intros ? ? ?]
  | apply consume_mono; intros ? ?
  | match goal with |- context [match ?x with _ => _ end] => destruct x end ].

Lemma body_mono : below (body r) (body r').
Proof.
  intros n st x.
  destruct n; cbn [body];
  try (unfold parse_func_def, parse_decl, parse_type_name, parse_decl_specs, parse_spec_qual, parse_type_spec, parse_struct, parse_enum, parse_tagged,
    parse_struct_decl_list, parse_struct_decl, parse_struct_declor_list, parse_enumor_list, parse_enumor, parse_constant_expr, parse_expr, parse_init_declor_list, parse_init_declor,
    parse_declor, parse_direct, direct_end, parse_suffixes, parse_param_list, parse_param_decl, parse_init, parse_init_list, parse_stmt, parse_case, parse_default, parse_compound, parse_items,
    parse_continue, parse_break, parse_return, parse_expr_stmt, parse_if, parse_switch, parse_while, parse_for, for_body, parse_assign, assign_end, parse_cond, parse_level, parse_tail, parse_cast, cast_end,
    parse_unary, parse_preinc, parse_unary_op, parse_sizeof, parse_postfix, parse_postfix_tail, member_name, parse_args, parse_args_tail, parse_primary; unfold parse_expr, parse_constant_expr; mono; fail).
Qed.
End Mono.

Lemma parse_mono f f' : f <= f' -> below (parse f) (parse f').
Proof.
  revert f'. induction f as [|f IH]; intros [|f'] L n st x H; try discriminate H; [lia|]. cbn [parse] in *.
  eapply body_mono; [|exact H]. apply IH. lia.
Qed.
Lemma parse_same f f' n st x y : parse f n st = Ok x -> parse f' n st = Ok y -> x = y.
Proof.
  intros H H'. assert (K := parse_mono f (f + f') ltac:(lia) n st x H). assert (K' := parse_mono f' (f + f') ltac:(lia) n st y H'). congruence.
Qed.

(** [m] gives [x] once the fuel is large enough *)
Definition Ev {A} (m : nat -> res A) (x : A) : Prop := exists f0, forall f, f0 <= f -> m f = Ok x.

Lemma ev_ret A (x : A) : Ev (fun _ => Ok x) x.
Proof. exists 0. auto. Qed.
Lemma ev_pok a st : Ev (fun _ => pok a st) (Some a, st).
Proof. apply ev_ret. Qed.
Lemma ev_perr st : Ev (fun _ => perr st) (None, st).
Proof. apply ev_ret. Qed.
Lemma ev_bind A B (m : nat -> res A) (k : nat -> A -> res B) y x : Ev m y -> Ev (fun f => k f y) x -> Ev (fun f => bind (m f) (k f)) x.
Proof.
  intros [f1 H1] [f2 H2]. exists (f1 + f2). intros f L. rewrite H1 by lia. cbn. apply H2. lia.
Qed.
Lemma ev_ptry m (k : nat -> ast -> pst -> pres) a st x : Ev m (Some a, st) -> Ev (fun f => k f a st) x -> Ev (fun f => pbind (m f) (k f)) x.
Proof. intros H K. unfold pbind. apply (ev_bind _ _ m _ (Some a, st)); [exact H|]. exact K. Qed.
Lemma ev_pfail m (k : nat -> ast -> pst -> pres) st : Ev m (None, st) -> Ev (fun f => pbind (m f) (k f)) (None, st).
Proof. intros H. unfold pbind. apply (ev_bind _ _ m _ (None, st)); [exact H|]. apply ev_perr. Qed.
Lemma ev_parse n st x : Ev (fun f => body (parse f) n st) x -> Ev (fun f => parse f n st) x.
Proof. intros [f0 H]. exists (S f0). intros [|f] L; [lia|]. cbn. apply H. lia. Qed.
Lemma ev_parse_inv n st x : Ev (fun f => parse f n st) x -> Ev (fun f => body (parse f) n st) x.
Proof. intros [f0 H]. exists f0. intros f L. apply (H (S f)). lia. Qed.
Lemma ev_at f n st x : parse f n st = Ok x -> Ev (fun f => parse f n st) x.
Proof. intros H. exists f. intros f' L. exact (parse_mono f f' L n st x H). Qed.
Lemma ev_unique A (m : nat -> res A) x y : Ev m x -> Ev m y -> x = y.
Proof. intros [f1 H1] [f2 H2]. assert (E1 := H1 (f1 + f2) ltac:(lia)). assert (E2 := H2 (f1 + f2) ltac:(lia)). congruence. Qed.

(** what the parser does with the tokens of a program *)
Lemma ev_tokens ts a st : ended ts -> Ev (fun f => parse f (NTransUnit []) (mkpst ts [] false)) (Some a, st) -> parse_tokens ts = Ok a.
Proof.
  intros E H. unfold parse_tokens.
  destruct (parse_total (parse_fuel ts) (NTransUnit []) (mkpst ts [] false) E I) as (o & st' & K & _).
  { unfold len, parse_fuel. cbn [toks rank]. lia. }
  apply ev_at in K as K'. assert (X := ev_unique _ _ _ _ H K'). injection X as <- <-. rewrite K. reflexivity.
Qed.
