(** Proofs for C23 - C25, C27, C28, fourth part: initialisers and declarations. *)
From Verif Require Import Base AstModel DtypeModel SymtabModel SrtModel ResolverModel TypeSpec TypeProofs TypeProofs2 ElabSpec ElabProofs ElabProofs2 ElabProofs3.
Local Open Scope Z_scope.

(** * Elements of an aggregate *)
Definition elts (d : dtype) : list dtype :=
  match d with DTYPE_ARRAY e n => repeat e (Z.to_nat n) | DTYPE_USTRUCT ms _ _ => List.map member_type ms | _ => [] end.
Lemma aggregate_at_elts d i o : 0 <= i -> dtype_aggregate_at d i = Ok o -> o = nth_error (elts d) (Z.to_nat i).
Proof.
  intros I H. destruct d; cbn in H; try discriminate; apply Ok_inj in H; subst o; try (now destruct (Z.to_nat i)); cbn.
  - destruct (i <? 0) eqn:E1; [lia |]. cbn. destruct (i >=? size) eqn:E2.
    + symmetry. apply nth_error_None. rewrite repeat_length. lia.
    + symmetry. apply nth_error_repeat. lia.
  - destruct (i <? 0) eqn:E1; [lia |]. now rewrite nth_error_map.
Qed.
Lemma aggregate_size_elts d n : dtype_aggregate_size d = Ok n -> Z.to_nat n = length (elts d).
Proof.
  destruct d; cbn; intros H; try discriminate; apply Ok_inj in H; subst n; try reflexivity.
  - now rewrite repeat_length.
  - rewrite map_length. lia.
Qed.
Lemma skipn_nth {A} (l : list A) : forall i x, nth_error l i = Some x -> skipn i l = x :: skipn (S i) l.
Proof. induction l as [| a l IH]; intros [| i] x H; cbn in *; try discriminate; [congruence | auto]. Qed.
Lemma aggregate_cases d : aggregate d <-> (exists e n, d = DTYPE_ARRAY e n) \/ (exists ms s a, d = DTYPE_USTRUCT ms s a) \/ (exists n s a, d = DTYPE_NSTRUCT n s a).
Proof.
  unfold aggregate, structure. split.
  - intros [H | H]; [auto |]. destruct d; try contradiction; eauto 10.
  - intros [H | [(ms & s & a & ->) | (n & s & a & ->)]]; auto.
Qed.
(** what the initialiser of an object of type [d] goes through *)
Lemma elements_elts tags d dd : tags_ok tags -> aggregate d -> match d with DTYPE_NSTRUCT n _ _ => tag_search tags n | _ => Some d end = Some dd ->
  elements tags d (elts dd).
Proof.
  intros T A H. apply aggregate_cases in A as [(e & n & ->) | [(ms & s & a & ->) | (n & s & a & ->)]].
  - injection H as <-. constructor.
  - injection H as <-. constructor.
  - pose proof (tag_search_ok _ _ _ T H) as C. destruct dd; try discriminate; econstructor; eassumption.
Qed.
Lemma isaggregate_spec d : dtype_isaggregate d = true -> aggregate d.
Proof. rewrite aggregate_cases. destruct d; cbn; intros H; try discriminate; eauto 10. Qed.
Lemma isaggregate_false d : dtype_isaggregate d = false -> ~ aggregate d.
Proof. rewrite aggregate_cases. destruct d; cbn; intros H [(? & ? & E) | [(? & ? & ? & E) | (? & ? & ? & E)]]; discriminate. Qed.

Definition calm (st st' : rst) : Prop := quiet (set_off 0 st) (set_off 0 st').
Lemma quiet_calm st st' : quiet st st' -> calm st st'.
Proof. intros [A B C D F [G H]]. split; auto. split; auto. Qed.
Lemma calm_off x st : calm st (set_off x st).
Proof. split; try reflexivity. split; [exists []; now rewrite app_nil_r |]. cbn. destruct (r_scope st); [| exact I]. exists []. now rewrite app_nil_r. Qed.
Lemma calm_off' x st : calm (set_off x st) st.
Proof. split; try reflexivity. split; [exists []; now rewrite app_nil_r |]. cbn. destruct (r_scope st); [| exact I]. exists []. now rewrite app_nil_r. Qed.
Lemma calm_refl st : calm st st.
Proof. apply quiet_refl. Qed.
Lemma calm_trans a b c : calm a b -> calm b c -> calm a c.
Proof. apply quiet_trans. Qed.
Lemma calm_scoped a b : calm a b -> scoped a b.
Proof. intros [A B C D F [G H]]. split; auto. Qed.

Lemma pad_padded s n : padded s n (zero_padding_copy s (Z.to_nat n)).
Proof.
  unfold padded, zero_padding_copy. destruct (_ <? _)%nat eqn:E.
  - rewrite app_length, repeat_length. split; [lia |]. intros i L. destruct (Nat.lt_ge_cases i (length s)).
    + now rewrite app_nth1 by lia.
    + rewrite app_nth2 by lia. rewrite nth_repeat, (nth_overflow s) by lia. reflexivity.
  - rewrite firstn_length. split; [lia |]. intros i L. rewrite <- (firstn_skipn (Z.to_nat n) s) at 2. rewrite app_nth1; [reflexivity |]. rewrite firstn_length. lia.
Qed.

Record init_ok (st : rst) (d : dtype) (a : ast) (s : srt) (st' : rst) : Prop := {
  io_init : initializer (env_of st) d a s (env_of st');
  io_inv : inv st';
  io_calm : calm st st'
}.
(** an aggregate without braces of its own, at the item [r_off] of the list *)
Record nested_ok (st : rst) (d : dtype) (items : list ast) (s : srt) (st' : rst) : Prop := {
  no_init : (exists es xs, elements (e_tags (env_of st)) d es /\ s = init_node xs /\
      fill items (env_of st) es (skipn (Z.to_nat (r_off st)) items) xs (skipn (Z.to_nat (r_off st')) items) (env_of st'))
    \/ (exists n p cs str str', d = DTYPE_ARRAY DTYPE_CHAR n /\ items = [Ast AST_STRING_EXPR p cs] /\ p = PStr str /\ Z.of_nat (length str) - 1 <= n /\ padded str n str'
      /\ s = init_node [Srt SRT_SLITERAL_EXPR (Some (DTYPE_ARRAY DTYPE_CHAR n)) (SPStr str') []] /\ st' = st);
  no_off : 0 <= r_off st';
  no_inv : inv st';
  no_calm : calm st st'
}.

Section Init.
Variable k : knot.
Hypothesis KE : forall a st s st', inv st -> k_expr k a st = Ok (Some s, st') -> expr_ok st a s st'.
Hypothesis KZ : forall tags d s, tags_ok tags -> k_zero k tags d = Ok s -> zeroed tags d s.
Hypothesis KI : forall d a st s st', inv st -> vclean d = true -> r_off st = 0 -> k_init k d false a st = Ok (Some s, st') -> init_ok st d a s st'.
Hypothesis KN : forall d a st s st', inv st -> vclean d = true -> aggregate d -> ast_type a = AST_INIT_LIST -> 0 <= r_off st < Z.of_nat (nchildren a) ->
  k_init k d true a st = Ok (Some s, st') -> nested_ok st d (ast_children a) s st'.

Lemma zero_list_ok tags d : tags_ok tags -> forall n i ss, 0 <= i -> (Z.to_nat i + n >= length (elts d))%nat -> zero_list k tags d i n = Ok ss ->
  all_zeroed tags (skipn (Z.to_nat i) (elts d)) ss.
Proof.
  intros T. induction n as [| n IH]; intros i ss I L H; cbn [zero_list] in H.
  - apply Ok_inj in H. subst ss. rewrite skipn_all2 by lia. constructor.
  - rinv. apply aggregate_at_elts in M; [| assumption]. subst v. rewrite (skipn_nth _ _ _ M0).
    constructor; [auto |]. replace (S (Z.to_nat i)) with (Z.to_nat (i + 1)) by lia. apply IH; [lia | lia | assumption].
Qed.
Lemma zero_step tags d s : tags_ok tags -> resolve_zero_initializer k tags d = Ok s -> zeroed tags d s.
Proof.
  intros T H. unfold resolve_zero_initializer in H.
  assert (A : forall dd, aggregate d -> match d with DTYPE_NSTRUCT n _ _ => deref (tag_search tags n) | _ => Ok d end = Ok dd ->
     bind (dtype_aggregate_size dd) (fun n => bind (zero_list k tags dd 0 (Z.to_nat n)) (fun cs => Ok (new_srt SRT_INIT cs))) = Ok s -> zeroed tags d s).
  { intros dd AG ED F. rinv. apply aggregate_size_elts in M. apply (zeroed_aggregate _ _ (elts dd)).
    - apply elements_elts; auto. destruct d; try (f_equal; congruence). now apply deref_ok in ED.
    - apply (zero_list_ok _ dd T (Z.to_nat v) 0); [lia | cbn; lia | assumption]. }
  destruct d; try discriminate; try (apply Ok_inj in H; subst s; constructor).
  all: apply bind_ok in H as (dd & ED & H); apply (A dd); auto; apply aggregate_cases; eauto 10.
Qed.

Lemma scalar_step d a st s st' : inv st -> vclean d = true -> dtype_isscalar d = true -> resolve_scalar_initializer k d a st = Ok (Some s, st') -> init_ok st d a s st'.
Proof.
  intros I C S H. unfold resolve_scalar_initializer in H. cbv zeta in H. destruct (_ && _) eqn:B in H; [discriminate |].
  apply bind_ok in H as (e & E & H).
  assert (EE : ~ braced a /\ e = a \/ exists p, a = Ast AST_INIT_LIST p [e]).
  { destruct (ast_is a AST_INIT_LIST) eqn:L.
    + right. apply ast_is_true in L. apply child_ok in E. destruct a as [t p cs]. cbn in L. subst t. cbn [ast_children] in E. destruct (nth0 _ _ E) as (q & ->).
      destruct q; [eauto |]. discriminate.
    + left. apply ast_is_false in L. apply Ok_inj in E. subst e. auto. }
  clear E. rinv. destruct (KE e (set_off (r_off st + 1) st) _ _ I M) as [N1 (dx & N2 & N2' & _) N3 N4].
  destruct (decay_clean _ _ N2 N2') as (de & TE & CE). same_dty. bools. split; auto.
  - eapply initializer_scalar; eauto using isscalar_scalar, decay_value, isassignable_spec, cast_assigned'.
  - eapply calm_trans; [apply calm_off | apply quiet_calm; eassumption].
Qed.

Lemma loop_ok d a size : ast_type a = AST_INIT_LIST -> clean d = true \/ elts d = [] -> Z.to_nat size = length (elts d) -> forall n i st xs i' st', inv st -> 0 <= r_off st -> 0 <= i ->
  (Z.to_nat i + n >= length (elts d))%nat ->
  aggregate_loop k d a size n i st = Ok (Some xs, i', st') ->
  0 <= r_off st' /\ inv st' /\ calm st st' /\ i <= i' /\
  forall zs, all_zeroed (e_tags (env_of st')) (skipn (Z.to_nat i') (elts d)) zs ->
    fill (ast_children a) (env_of st) (skipn (Z.to_nat i) (elts d)) (skipn (Z.to_nat (r_off st)) (ast_children a)) (xs ++ zs)
      (skipn (Z.to_nat (r_off st')) (ast_children a)) (env_of st').
Proof.
  intros T CD SZ. assert (CE : forall e i, nth_error (elts d) i = Some e -> vclean e = true).
  { intros e i N. destruct CD as [CD | CD]; [| rewrite CD in N; destruct i; discriminate]. apply nth_error_In in N. destruct d; try (destruct N); try destruct H.
    - apply repeat_spec in N. subst e. now apply clean_vclean.
    - cbn in N. apply in_map_iff in N as (m & <- & N). cbn in CD. rewrite forallb_forall in CD. now apply clean_vclean, CD. }
  assert (Done : forall i st zs, i >= Z.of_nat (length (elts d)) -> all_zeroed (e_tags (env_of st)) (skipn (Z.to_nat i) (elts d)) zs ->
    fill (ast_children a) (env_of st) (skipn (Z.to_nat i) (elts d)) (skipn (Z.to_nat (r_off st)) (ast_children a)) zs (skipn (Z.to_nat (r_off st)) (ast_children a)) (env_of st)).
  { intros i st zs L Z. rewrite skipn_all2 in * by lia. inversion Z; subst. apply fill_all. }
  induction n as [| n IH]; intros i st xs i' st' I O J L H; cbn [aggregate_loop] in H.
  - injection H as <- <- <-. splits; auto using calm_refl; [lia |]. intros zs Z. apply Done; [lia | assumption].
  - destruct (_ && _) eqn:B in H.
    + bools. apply bind_ok in H as (c & C & H). destruct (r_off st <? 0) eqn:O'; [lia |]. apply child_ok in C.
      apply bind_ok in H as (o & OA & H). apply aggregate_at_elts in OA; [| assumption]. subst o. apply bind_ok in H as (e & E & H). apply deref_ok in E.
      pose proof (CE _ _ E) as CLE. rewrite (skipn_nth _ _ _ E). rewrite (skipn_nth _ _ _ C).
      apply bind_ok in H as ([x st1] & X & H). apply bind_ok in H as ([[ys j] st2] & Y & H). injection H as H <- <-.
      destruct x as [x |]; [| discriminate]. destruct ys as [ys |]; [| discriminate]. injection H as <-.
      replace (S (Z.to_nat i)) with (Z.to_nat (i + 1)) by lia. replace (S (Z.to_nat (r_off st))) with (Z.to_nat (r_off st + 1)) by lia.
      destruct (dtype_isaggregate e && negb (ast_is c AST_INIT_LIST)) eqn:N.
      * bools. apply isaggregate_spec in H. apply ast_is_false in H2. pose proof (KN e a st x st1 I CLE H T ltac:(lia) X) as [N1 N2 N3 N4].
        destruct (IH (i + 1) st1 ys j st2 N3 N2 ltac:(lia) ltac:(lia) Y) as (R1 & R2 & R3 & R4 & R5). splits; auto; [eapply calm_trans; eassumption | lia |].
        intros zs Z. specialize (R5 zs Z). destruct N1 as [(es & xs & S1 & -> & S2) | (m & p & cs & str & str' & -> & S1 & -> & S3 & S4 & -> & ->)].
        -- cbn [app]. eapply fill_elided; eauto. rewrite (skipn_nth _ _ _ C) in S2. replace (S (Z.to_nat (r_off st))) with (Z.to_nat (r_off st + 1)) in S2 by lia. exact S2.
        -- assert (ZO : r_off st = 0) by (unfold nchildren in *; rewrite S1 in *; cbn in *; lia). rewrite ZO in *. rewrite S1 in *. cbn in C. injection C as <-.
           cbn [app]. cbn [skipn Z.to_nat] in *. eapply fill_string; eauto.
      * apply bind_ok in X as ([x' st0] & X & E'). injection E' as -> <-.
        assert (N' : aggregate e -> braced c).
        { intros AG. apply andb_false_elim in N as [N | N]; [now apply isaggregate_false in N |]. bools. now apply ast_is_true in N. }
        destruct (KI e c (set_off 0 st) x st0 I CLE eq_refl X) as [N1 N2 N3].
        destruct (IH (i + 1) (set_off (r_off st + 1) st0) ys j st2 N2 ltac:(cbn; lia) ltac:(lia) ltac:(lia) Y) as (R1 & R2 & R3 & R4 & R5). splits; auto.
        -- eapply calm_trans; [apply (calm_off 0) |]. eapply calm_trans; [exact N3 |]. eapply calm_trans; [apply calm_off | exact R3].
        -- lia.
        -- intros zs Z. specialize (R5 zs Z). cbn [app]. eapply fill_item; eauto.
    + injection H as <- <- <-. splits; auto using calm_refl; [lia |]. intros zs Z.
      apply andb_false_elim in B as [B | B].
      * cbn [app]. rewrite (skipn_all2 (ast_children a)) by (unfold nchildren in *; lia). now apply fill_zero.
      * apply Done; [lia | assumption].
Qed.
Lemma aggregate_step d od nested a st s st' : inv st -> clean d = true -> aggregate d -> od = match d with DTYPE_NSTRUCT n _ _ => tag_search (r_tags st) n | _ => Some d end ->
  0 <= r_off st -> resolve_aggregate_initializer k od nested a st = Ok (Some s, st') ->
  ast_type a = AST_INIT_LIST /\ 0 <= r_off st' /\ inv st' /\ calm st st' /\ (nested = false -> (length (ast_children a) <= Z.to_nat (r_off st'))%nat) /\
  exists es xs, elements (e_tags (env_of st)) d es /\ s = init_node xs /\
      fill (ast_children a) (env_of st) es (skipn (Z.to_nat (r_off st)) (ast_children a)) xs (skipn (Z.to_nat (r_off st')) (ast_children a)) (env_of st').
Proof.
  intros I C A OD O H. unfold resolve_aggregate_initializer in H. destruct (negb _) eqn:L in H; [discriminate |]. bools. apply ast_is_true in L.
  apply bind_ok in H as (dd & DD & H). apply deref_ok in DD. subst od. apply bind_ok in H as (size & SZ & H). apply aggregate_size_elts in SZ.
  apply bind_ok in H as ([[xs i] st1] & LP & H). apply bind_ok in H as (zs & ZS & H). destruct (negb nested && _) eqn:F in H; [discriminate |].
  destruct xs as [xs |]; [| discriminate]. rinv.
  assert (CD : clean dd = true \/ elts dd = []).
  { destruct d; try (injection DD as <-; now left). pose proof (tag_search_ok _ _ _ (proj1 (proj2 I)) DD) as X. destruct dd; try discriminate; [left; exact X | right; reflexivity]. }
  destruct (loop_ok dd a size L CD SZ (Z.to_nat size) 0 st xs i st' I O ltac:(lia) ltac:(cbn; lia) LP) as (R1 & R2 & R3 & R4 & R5). splits; auto.
  - intros ->. cbn in F. unfold nchildren in F. lia.
  - exists (elts dd), (xs ++ zs). splits; [| reflexivity |].
    + apply elements_elts; auto. exact (proj1 (proj2 I)).
    + apply (R5 zs). apply (zero_list_ok _ _ (proj1 (proj2 R2)) (Z.to_nat (size - i))); [lia | lia | assumption].
Qed.
Lemma init_split d nested a st s st' : inv st -> vclean d = true -> dtype_isscalar d = false -> 0 <= r_off st -> resolve_initializer k d nested a st = Ok (Some s, st') ->
  clean d = true /\ aggregate d /\
  ((ast_type a = AST_INIT_LIST /\ 0 <= r_off st' /\ inv st' /\ calm st st' /\ (nested = false -> (length (ast_children a) <= Z.to_nat (r_off st'))%nat) /\
    exists es xs, elements (e_tags (env_of st)) d es /\ s = init_node xs /\
      fill (ast_children a) (env_of st) es (skipn (Z.to_nat (r_off st)) (ast_children a)) xs (skipn (Z.to_nat (r_off st')) (ast_children a)) (env_of st'))
   \/ (exists n p cs str str', d = DTYPE_ARRAY DTYPE_CHAR n /\ (a = Ast AST_STRING_EXPR p cs \/ (exists q, a = Ast AST_INIT_LIST q [Ast AST_STRING_EXPR p cs])) /\ p = PStr str
      /\ Z.of_nat (length str) - 1 <= n /\ padded str n str' /\ s = init_node [Srt SRT_SLITERAL_EXPR (Some (DTYPE_ARRAY DTYPE_CHAR n)) (SPStr str') []] /\ st' = st)).
Proof.
  intros I C S O H. unfold resolve_initializer in H. rewrite S in H.
  assert (A : aggregate d /\ clean d = true).
  { destruct d; try discriminate; (split; [apply aggregate_cases; eauto 10 | exact C]). }
  destruct A as (A & CL). splits; auto.
  assert (P : (exists n, d = DTYPE_ARRAY DTYPE_CHAR n) \/ resolve_aggregate_initializer k (match d with DTYPE_NSTRUCT n _ _ => tag_search (r_tags st) n | _ => Some d end) nested a st = Ok (Some s, st')).
  { destruct d; try discriminate; try (right; exact H). destruct d; try (right; exact H). left. eauto. }
  destruct P as [(n & ->) | P].
  - cbn in H. unfold resolve_string_initializer in H. apply bind_ok in H as (l & L & H). destruct (negb _) eqn:B in H.
    + left. eapply (aggregate_step (DTYPE_ARRAY DTYPE_CHAR n)); eauto.
    + right. bools. apply ast_is_true in B.
      assert (LL : l = a \/ exists q, a = Ast AST_INIT_LIST q [l]).
      { destruct (ast_is a AST_INIT_LIST && _) eqn:E in L; [| left; congruence]. right. apply andb_prop in E as [E1 E2]. apply ast_is_true in E1. apply Nat.eqb_eq in E2.
        destruct a as [t q c]. cbn in E1. subst t. unfold nchildren in E2. cbn in E2. apply child_ok in L. cbn [ast_children] in L.
        destruct c as [| x [|]]; try discriminate. injection L as ->. eauto. }
      clear L. rinv. destruct l as [t p cs]. cbn in B. subst t. unfold ast_sliteral in M. cbn in M. destruct p; try discriminate. injection M as ->.
      exists n, (PStr v), cs, v, (zero_padding_copy v (Z.to_nat n)). splits; auto using pad_padded; [| lia].
      destruct LL as [<- | (q & ->)]; eauto.
  - left. eapply (aggregate_step d); eauto.
Qed.
Lemma init_step d a st s st' : inv st -> vclean d = true -> r_off st = 0 -> resolve_initializer k d false a st = Ok (Some s, st') -> init_ok st d a s st'.
Proof.
  intros I C O H. destruct (dtype_isscalar d) eqn:S.
  - unfold resolve_initializer in H. rewrite S in H. now apply scalar_step.
  - destruct (init_split d false a st s st' I C S ltac:(lia) H) as (CL & A & [(T & R1 & R2 & R3 & R4 & es & xs & R5 & -> & R6) | (n & p & cs & str & str' & -> & R1 & -> & R2 & R3 & -> & ->)]).
    + split; auto. destruct a as [t p c]. cbn in T. subst t. rewrite O in R6. cbn [ast_children Z.to_nat skipn] in *. rewrite skipn_all2 in R6 by auto. econstructor; eauto.
    + split; auto using calm_refl. eapply initializer_string; eauto.
Qed.
Lemma nested_step d a st s st' : inv st -> vclean d = true -> aggregate d -> ast_type a = AST_INIT_LIST -> 0 <= r_off st < Z.of_nat (nchildren a) ->
  resolve_initializer k d true a st = Ok (Some s, st') -> nested_ok st d (ast_children a) s st'.
Proof.
  intros I C A T O H. assert (S : dtype_isscalar d = false) by (apply aggregate_cases in A as [(e & n & ->) | [(ms & z & al & ->) | (n & z & al & ->)]]; reflexivity).
  destruct (init_split d true a st s st' I C S ltac:(lia) H) as (CL & _ & [(_ & R1 & R2 & R3 & R4 & es & xs & R5 & -> & R6) | (n & p & cs & str & str' & -> & R1 & -> & R2 & R3 & -> & ->)]).
  - split; auto. left. eauto 10.
  - destruct R1 as [-> | (q & ->)]; [discriminate |]. split; auto using calm_refl; [| lia]. right. exists n, (PStr str), cs, str, str'. splits; auto.
Qed.
End Init.
