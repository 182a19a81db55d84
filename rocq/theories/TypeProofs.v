(** Proofs about types: layout (C16), equality (C17), assignability (C18), conversions (C19), specifiers (C20) *)
From Coq Require Import Permutation.
From Verif Require Import Base AstModel DtypeModel SrtModel ResolverModel TypeSpec.
Local Open Scope Z_scope.

(** * Induction over nested types *)
Section DtypeInd.
  Variable P : dtype -> Prop.
  Hypothesis Hbase : forall d, match d with
    | DTYPE_POINTER _ | DTYPE_ARRAY _ _ | DTYPE_USTRUCT _ _ _ | DTYPE_FUNCTION _ _ | DTYPE_TYPEDEF _ => False
    | _ => True end -> P d.
  Hypothesis Hptr : forall d, P d -> P (DTYPE_POINTER d).
  Hypothesis Harr : forall d n, P d -> P (DTYPE_ARRAY d n).
  Hypothesis Hst : forall ms nb al, Forall (fun m => P (member_type m)) ms -> P (DTYPE_USTRUCT ms nb al).
  Hypothesis Hfun : forall ps r, Forall (fun p => P (snd p)) ps -> P r -> P (DTYPE_FUNCTION ps r).
  Hypothesis Htd : forall d, P d -> P (DTYPE_TYPEDEF d).
  Fixpoint dtype_nested_ind (d : dtype) : P d :=
    match d with
    | DTYPE_POINTER t => Hptr t (dtype_nested_ind t)
    | DTYPE_ARRAY t n => Harr t n (dtype_nested_ind t)
    | DTYPE_USTRUCT ms nb al =>
        Hst ms nb al ((fix go l : Forall (fun m => P (member_type m)) l :=
          match l with [] => Forall_nil _ | (n, t, o) :: r => Forall_cons (n, t, o) (dtype_nested_ind t) (go r) end) ms)
    | DTYPE_FUNCTION ps r =>
        Hfun ps r ((fix go l : Forall (fun p => P (snd p)) l :=
          match l with [] => Forall_nil _ | (n, t) :: r => Forall_cons (n, t) (dtype_nested_ind t) (go r) end) ps)
          (dtype_nested_ind r)
    | DTYPE_TYPEDEF t => Htd t (dtype_nested_ind t)
    | d => Hbase d I
    end.
End DtypeInd.

Lemma name_eqb_eq a b : name_eqb a b = true <-> a = b.
Proof.
  revert b; induction a as [| x a IH]; intros [| y b]; cbn; split; try congruence; intros H.
  - apply andb_prop in H as [H1 H2]. apply Z.eqb_eq in H1. apply IH in H2. congruence.
  - injection H as -> ->. rewrite Z.eqb_refl. now apply IH.
Qed.

(** * C16 *)
Lemma nbytes_sizeof d : dtype_nbytes d = sizeof d.
Proof. induction d; cbn; try reflexivity. rewrite IHd. apply Z.mul_comm. Qed.
Lemma alignment_alignof d : dtype_alignment d = alignof d.
Proof. induction d; cbn; auto. Qed.

Lemma placed_bounds from ms until : placed from ms until ->
  Forall (fun m => 0 <= sizeof (member_type m)) ms -> from <= until.
Proof.
  induction 1 as [| from n d off ms until Ho Hd Hp IH]; intros HF; [lia |].
  inversion HF; subst. cbn in *. specialize (IH H2). lia.
Qed.
Lemma placed_member from ms until m : placed from ms until -> Forall (fun m => 0 <= sizeof (member_type m)) ms -> In m ms ->
  from <= member_offset m /\ member_offset m + sizeof (member_type m) <= until /\ (alignof (member_type m) | member_offset m).
Proof.
  induction 1 as [| from n d off ms until Ho Hd Hp IH]; intros HF [].
  - subst m. inversion HF; subst. apply placed_bounds in Hp; auto. cbn in *. repeat split; auto; lia.
  - inversion HF; subst. cbn in *. destruct (IH H3 H) as (A & B & C). repeat split; auto; lia.
Qed.

Lemma complete_layout d : complete d -> 0 < alignof d /\ 0 < sizeof d /\ (alignof d | sizeof d).
Proof.
  assert (P : forall d, complete d -> 0 < alignof d /\ 0 < sizeof d /\ (alignof d | sizeof d)).
  { clear d. induction d using dtype_nested_ind; intros Hc.
    - destruct d; try contradiction; inversion Hc; subst; cbn; repeat split; try lia; try assumption; try (now exists 1).
    - cbn. repeat split; try lia. now exists 1.
    - inversion Hc; subst. destruct (IHd H1) as (A & B & C). cbn. repeat split; try nia. now apply Z.divide_mul_l.
    - inversion Hc as [| | | | | | | | | | | | ms' size align HF HL]; subst. destruct HL as [(Hmax & m & Hin & Hm) (until & Hp & Hs) Hmul].
      assert (HA : Forall (fun m => 0 < alignof (member_type m) /\ 0 < sizeof (member_type m)) ms).
      { rewrite Forall_forall in *. intros x Hx. destruct (H x Hx (HF x Hx)) as (? & ? & ?). auto. }
      cbn. rewrite Forall_forall in HA. destruct (HA m Hin) as (A1 & A2).
      assert (HS : Forall (fun m => 0 <= sizeof (member_type m)) ms) by (rewrite Forall_forall; intros x Hx; destruct (HA x Hx); lia).
      destruct (placed_member _ _ _ _ Hp HS Hin) as (B1 & B2 & B3).
      repeat split; try lia. assumption.
    - inversion Hc.
    - inversion Hc. }
  apply P.
Qed.

Lemma min_multiple n b : 0 <= n -> 0 < b -> exists r, min_multiple_of n b = Ok r /\ n <= r < n + b /\ (b | r).
Proof.
  intros Hn Hb. unfold min_multiple_of. destruct (b =? 0) eqn:E; [lia |]. eexists. split; [reflexivity |].
  rewrite Z.quot_div_nonneg by lia. split; [| now exists ((n + b - 1) / b)].
  pose proof (Z.div_mod (n + b - 1) b). pose proof (Z.mod_pos_bound (n + b - 1) b). nia.
Qed.

Lemma layout_members_placed ms : forall from align, 0 <= from ->
  Forall (fun m => complete (snd m)) ms ->
  exists members until align', layout_members ms from align = Ok (members, until, align')
    /\ List.map fst members = ms /\ placed from members until /\ from <= until
    /\ align <= align' /\ (forall m, In m members -> alignof (member_type m) <= align')
    /\ (align' = align \/ exists m, In m members /\ alignof (member_type m) = align').
Proof.
  induction ms as [| [n d] ms IH]; intros from align Hf HF; cbn.
  - exists [], from, align. repeat split; auto; try lia; try constructor. intros m [].
  - inversion HF; subst. cbn in H1. destruct (complete_layout d H1) as (A1 & A2 & A3).
    rewrite alignment_alignof, nbytes_sizeof.
    destruct (min_multiple from (alignof d) Hf A1) as (off & -> & Ho & Hd). cbn.
    destruct (IH (off + sizeof d) (if alignof d >? align then alignof d else align)) as (members & until & align' & -> & HM & HP & HU & HA & HB & HC); auto; [lia |].
    assert (HX : align <= align' /\ alignof d <= align') by (destruct (alignof d >? align) eqn:EX; lia).
    cbn. exists ((n, d, off) :: members), until, align'. split; [reflexivity |]. cbn. rewrite HM.
    split; [reflexivity |]. split; [now constructor |]. split; [lia |]. split; [lia |]. split.
    + intros m [<- | Hm]; [cbn; lia | auto].
    + destruct HC as [-> | (m & Hm & Em)]; [| right; exists m; auto].
      destruct (alignof d >? align); [right; exists (n, d, off); auto | left; reflexivity].
Qed.

Lemma struct_layout ms : ms <> [] -> Forall (fun m => complete (snd m)) ms ->
  exists members size align, new_unnamed_struct ms = Ok (DTYPE_USTRUCT members size align)
    /\ List.map fst members = ms /\ laid_out members size align /\ complete (DTYPE_USTRUCT members size align).
Proof.
  intros Hne HF. unfold new_unnamed_struct.
  destruct (layout_members_placed ms 0 0 ltac:(lia) HF) as (members & until & align & -> & HM & HP & HU & HA & HB & HC). cbn.
  assert (Hm : exists m, In m members /\ alignof (member_type m) = align /\ 0 < align).
  { assert (HF' : forall m, In m members -> 0 < alignof (member_type m)).
    { intros m Hm. rewrite Forall_forall in HF. apply complete_layout. apply (HF (fst m)). rewrite <- HM. now apply in_map. }
    destruct HC as [-> | (m & Hm & E)].
    - destruct members as [| m r]; [cbn in HM; congruence |]. specialize (HF' m (or_introl eq_refl)). specialize (HB m (or_introl eq_refl)). lia.
    - exists m. rewrite <- E. auto. }
  destruct Hm as (m & Hm & E & Hpos).
  destruct (min_multiple until align HU Hpos) as (size & -> & Hs & Hd). cbn.
  assert (HL : laid_out members size align).
  { split; [split; [assumption | exists m; auto] | exists until; auto | assumption]. }
  exists members, size, align. repeat split; auto; try apply HL.
  constructor; [| assumption]. rewrite Forall_forall in *. intros x Hx. apply (HF (fst x)). rewrite <- HM. now apply in_map.
Qed.

(** the layout in the words of the property *)
Lemma layout_meaning ms size align : Forall (fun m => complete (member_type m)) ms -> laid_out ms size align ->
  (forall m, In m ms -> 0 <= member_offset m /\ member_offset m + sizeof (member_type m) <= size
                        /\ (alignof (member_type m) | member_offset m) /\ (align | size) /\ alignof (member_type m) <= align)
  /\ (forall i j m1 m2, (i < j)%nat -> nth_error ms i = Some m1 -> nth_error ms j = Some m2 ->
        member_offset m1 + sizeof (member_type m1) <= member_offset m2).
Proof.
  intros HF [(Hmax & _) (until & Hp & Hs) Hmul].
  assert (HS : Forall (fun m => 0 <= sizeof (member_type m)) ms).
  { rewrite Forall_forall in *. intros m Hm. destruct (complete_layout _ (HF m Hm)) as (? & ? & ?). lia. }
  split.
  - intros m Hm. destruct (placed_member _ _ _ _ Hp HS Hm) as (A & B & C). specialize (Hmax m Hm). repeat split; auto; lia.
  - clear Hmax Hs Hmul HF. set (z := 0) in Hp. clearbody z. revert z until Hp.
    induction ms as [| m ms IH]; intros from until Hp i j m1 m2 Hij H1 H2.
    + destruct i; discriminate.
    + inversion Hp as [| ? n d off ? ? _ _ Hp']; subst. inversion HS as [| ? ? _ HS']; subst. destruct j; [lia |]. cbn in H2.
      destruct i; cbn in H1.
      * injection H1 as <-. apply nth_error_In in H2. cbn. apply (placed_member _ _ _ _ Hp' HS') in H2. lia.
      * apply (IH HS' _ _ Hp' i j); auto. lia.
Qed.

(** the layout is determined by the member types *)
Lemma placed_unique from ms1 until1 : placed from ms1 until1 -> forall ms2 until2, placed from ms2 until2 ->
  List.map fst ms1 = List.map fst ms2 -> ms1 = ms2 /\ until1 = until2.
Proof.
  induction 1 as [| from n d off ms until Ho Hd Hp IH]; intros ms2 until2 H2 E; inversion H2; subst; try discriminate.
  - auto.
  - cbn in E. injection E as -> -> E.
    assert (off = off0).
    { destruct Hd as [x ->], H0 as [y ->]. assert (x = y) by nia. congruence. }
    subst. destruct (IH _ _ H1 E) as (-> & ->). auto.
Qed.
Lemma layout_unique ms1 size1 align1 ms2 size2 align2 : laid_out ms1 size1 align1 -> laid_out ms2 size2 align2 ->
  List.map fst ms1 = List.map fst ms2 -> ms1 = ms2 /\ size1 = size2 /\ align1 = align2.
Proof.
  intros [(A1 & m1 & I1 & E1) (u1 & P1 & S1) D1] [(A2 & m2 & I2 & E2) (u2 & P2 & S2) D2] E.
  destruct (placed_unique _ _ _ P1 _ _ P2 E) as (-> & ->).
  assert (align1 = align2) by (specialize (A1 m2 I2); specialize (A2 m1 I1); lia).
  subst align2. split; [reflexivity |]. split; [| congruence].
  destruct D1 as [x ->], D2 as [y ->]. assert (x = y) by nia. congruence.
Qed.

(** * C17 *)
Lemma equals_shape a b : dtype_equals a b = true <-> shape a = shape b.
Proof.
  revert b. induction a using dtype_nested_ind; intros b.
  - destruct a; try contradiction; destruct b; cbn; try (split; [try discriminate; try reflexivity | try discriminate; try reflexivity]).
    + intros E%name_eqb_eq. now subst.
    + intros E. injection E as ->. now apply name_eqb_eq.
    + intros E%name_eqb_eq. now subst.
    + intros E. injection E as ->. now apply name_eqb_eq.
    + intros E. f_equal. revert members0 E. induction members as [| [n v] r IH]; intros [| [n' v'] r'] E; try discriminate; [reflexivity |].
      apply andb_prop in E as [E1 E2]. apply andb_prop in E1 as [E1 E3]. apply name_eqb_eq in E1. apply Z.eqb_eq in E3.
      subst. f_equal. now apply IH.
    + intros E. injection E as ->. induction members0 as [| [n v] r IH]; [reflexivity |].
      rewrite Z.eqb_refl, (proj2 (name_eqb_eq n n) eq_refl). apply IH.
  - destruct b; cbn; try (split; discriminate). rewrite IHa. split; [congruence | intros E; injection E; auto].
  - destruct b; cbn; try (split; discriminate). split.
    + intros E. apply andb_prop in E as [E1 E2]. apply Z.eqb_eq in E1. apply IHa in E2. congruence.
    + intros E. injection E as E1 E2. rewrite (proj2 (IHa _) E1). subst. now rewrite Z.eqb_refl.
  - destruct b; cbn; try (split; discriminate). revert members. induction H as [| [[n t] o] r Ht Hr IH]; intros [| [[n' t'] o'] r']; cbn in *; try (split; discriminate); try (split; reflexivity).
    specialize (IH r'). split.
    + intros E. apply andb_prop in E as [E1 E2]. apply andb_prop in E1 as [E1 E3]. apply name_eqb_eq in E1. apply Ht in E3. apply IH in E2.
      injection E2 as E2. rewrite E3, E2, E1. reflexivity.
    + intros E. injection E as E1 E2 E3. subst. rewrite (proj2 (name_eqb_eq n' n') eq_refl), (proj2 (Ht _) E2). cbn. apply IH. now rewrite E3.
  - destruct b; cbn; try (split; discriminate).
    assert (G : forall qs, (fix go (l1 l2 : list (option name * dtype)) : bool :=
         match l1, l2 with
         | [], [] => true
         | (_, d1) :: r1, (_, d2) :: r2 => dtype_equals d1 d2 && go r1 r2
         | _, _ => false
         end) ps qs = true <-> List.map (fun p : option name * dtype => let '(_, t) := p in (@None name, shape t)) ps = List.map (fun p : option name * dtype => let '(_, t) := p in (@None name, shape t)) qs).
    { clear IHa. induction H as [| [n t] r Ht Hr IH]; intros [| [n' t'] r']; cbn in *; try (split; discriminate); try (split; reflexivity).
      specialize (IH r'). split.
      + intros E. apply andb_prop in E as [E1 E2]. apply Ht in E1. apply IH in E2. congruence.
      + intros E. injection E as E1 E2. rewrite (proj2 (Ht _) E1). now apply IH. }
    split.
    + intros E. apply andb_prop in E as [E1 E2]. apply IHa in E1. apply G in E2. congruence.
    + intros E. injection E as E1 E2. rewrite (proj2 (IHa _) E2). now apply G.
  - destruct b; cbn; try (split; discriminate). rewrite IHa. split; [congruence | intros E; injection E; auto].
Qed.

Lemma equals_refl a : dtype_equals a a = true.
Proof. now apply equals_shape. Qed.
Lemma equals_sym a b : dtype_equals a b = dtype_equals b a.
Proof.
  destruct (dtype_equals a b) eqn:E, (dtype_equals b a) eqn:F; try reflexivity;
  [apply equals_shape in E; symmetry in E | apply equals_shape in F; symmetry in F]; apply equals_shape in E || apply equals_shape in F; congruence.
Qed.
Lemma equals_trans a b c : dtype_equals a b = true -> dtype_equals b c = true -> dtype_equals a c = true.
Proof. rewrite !equals_shape. congruence. Qed.

(** equal coherent types are laid out alike *)
Lemma shape_layout tags a : forall b, coherent tags a -> coherent tags b -> shape a = shape b ->
  sizeof a = sizeof b /\ alignof a = alignof b.
Proof.
  induction a using dtype_nested_ind; intros b Ca Cb E.
  - destruct a; try contradiction; destruct b; try discriminate; cbn; auto.
    inversion Ca; inversion Cb; subst; try contradiction. injection E as ->. auto.
  - destruct b; try discriminate. auto.
  - destruct b; try discriminate. inversion Ca; inversion Cb; subst; try contradiction. injection E as E ->.
    cbn. destruct (IHa b) as (-> & ->); auto.
  - destruct b; try discriminate. inversion Ca as [| | | | ms1 s1 a1 F1 L1 | |]; inversion Cb as [| | | | ms2 s2 a2 F2 L2 | |]; subst; try contradiction.
    cbn in E. injection E as E.
    assert (G : Forall2 (fun m1 m2 => sizeof (member_type m1) = sizeof (member_type m2) /\ alignof (member_type m1) = alignof (member_type m2)) ms members).
    { clear L1 L2 Ca Cb. revert members F2 E. induction H as [| [[n t] o] r Ht Hr IH]; intros [| [[n' t'] o'] r'] F2 E; try discriminate; [constructor |].
      cbn in E. injection E as E1 E2 E3. inversion F1; inversion F2; subst. constructor; [now apply Ht |]. now apply IH. }
    cbn. clear - G L1 L2.
    destruct L1 as [(A1 & m1 & I1 & E1) (u1 & P1 & S1) D1], L2 as [(A2 & m2 & I2 & E2) (u2 & P2 & S2) D2].
    assert (alignment = al).
    { assert (X : alignof (member_type m1) <= alignment).
      { clear - G I1 A2. induction G as [| x y r s (_ & E) HG IH]; [contradiction |]. destruct I1 as [<- | I1].
        - rewrite E. apply A2. now left.
        - apply IH; auto. intros m Hm. apply A2. now right. }
      assert (Y : alignof (member_type m2) <= al).
      { clear - G I2 A1. induction G as [| x y r s (_ & E) HG IH]; [contradiction |]. destruct I2 as [<- | I2].
        - rewrite <- E. apply A1. now left.
        - apply IH; auto. intros m Hm. apply A1. now right. }
      lia. }
    subst. assert (u1 = u2).
    { clear - G P1 P2. revert P1 P2. generalize 0. induction G as [| x y r s (Es & Ea) HG IH]; intros from P1 P2.
      - inversion P1; inversion P2; subst; congruence.
      - inversion P1 as [| ? n1 d1 off1 ? ? B1 V1 P1']; inversion P2 as [| ? n2 d2 off2 ? ? B2 V2 P2']; subst. cbn in Es, Ea. rewrite <- Es, <- Ea in *.
        assert (off1 = off2) by (destruct V1 as [p ->], V2 as [q ->]; assert (p = q) by nia; congruence). subst off2. eauto. }
    subst u2. split; [| congruence]. destruct D1 as [p D1], D2 as [q D2]. assert (p = q) by nia. nia.
  - destruct b; try discriminate. auto.
  - destruct b; try discriminate. auto.
Qed.
Lemma equal_types_layout tags a b : coherent tags a -> coherent tags b -> dtype_equals a b = true ->
  dtype_nbytes a = dtype_nbytes b /\ dtype_alignment a = dtype_alignment b.
Proof. intros Ca Cb E. rewrite !nbytes_sizeof, !alignment_alignof. apply equals_shape in E. eapply shape_layout; eauto. Qed.
(** equal structs have the same member names in the same order, with equal types *)
Lemma equal_structs_members ms1 s1 a1 ms2 s2 a2 : dtype_equals (DTYPE_USTRUCT ms1 s1 a1) (DTYPE_USTRUCT ms2 s2 a2) = true ->
  Forall2 (fun m1 m2 => fst (fst m1) = fst (fst m2) /\ same_type (member_type m1) (member_type m2)) ms1 ms2.
Proof.
  intros E. apply equals_shape in E. injection E as E. revert ms2 E. induction ms1 as [| [[n t] o] r IH]; intros [| [[n' t'] o'] r'] E; try discriminate; constructor.
  - injection E as E1 E2 E3. split; assumption.
  - injection E as E1 E2 E3. auto.
Qed.

(** * C18 *)
Lemma arithmetic_spec d : dtype_isarithmetic d = true <-> arithmetic d.
Proof.
  unfold arithmetic. split.
  - destruct d; intros H; try discriminate; cbn; eauto 12.
  - intros [H | [(n & ->) | (ms & ->)]]; [| reflexivity | reflexivity].
    cbn in H. destruct H as [<- | [<- | [<- | [<- | [<- | [<- | [<- | []]]]]]]]; reflexivity.
Qed.
Lemma assignable_spec d o : ~ (structure d /\ structure o) -> (dtype_isassignable d o = true <-> assignable d o).
Proof.
  intros Hs. unfold dtype_isassignable, assignable. rewrite orb_true_iff, andb_true_iff, !arithmetic_spec.
  assert (X : (structure d /\ structure o /\ same_type d o) <-> False) by tauto.
  rewrite X. clear X.
  assert (Y : match d, o with DTYPE_POINTER a, DTYPE_POINTER b => dtype_iscompatible a b || is_void a || is_void b | _, _ => false end = true
              <-> pointers_assignable d o).
  { unfold pointers_assignable, dtype_iscompatible, same_type. split.
    - destruct d; try discriminate. destruct o; try discriminate. rewrite !orb_true_iff, equals_shape. intros H. eexists _, _.
      split; [reflexivity |]. split; [reflexivity |]. destruct H as [[H | H] | H]; [auto | right; left | right; right].
      + destruct d; try discriminate; reflexivity.
      + destruct o; try discriminate; reflexivity.
    - intros (a & b & -> & -> & H). rewrite !orb_true_iff, equals_shape. destruct H as [H | [-> | ->]]; auto. }
  rewrite Y. tauto.
Qed.
Lemma assignable_struct d o : structure d \/ structure o -> dtype_isassignable d o = false.
Proof. destruct d, o; cbn; intros [H | H]; try contradiction; reflexivity. Qed.

(** * C19 *)
Lemma usual_conversion l r dl dr r1 u1 r2 u2 :
  srt_dtype l = Some dl -> srt_dtype r = Some dr -> promotes dl r1 u1 -> promotes dr r2 u2 ->
  let c := common_type r1 u1 r2 u2 in
  let '(l', r') := perform_usual_arithmetic_conversion l r in
  srt_dtype l' = Some c /\ srt_dtype r' = Some c.
Proof.
  intros Hl Hr P1 P2. unfold perform_usual_arithmetic_conversion. rewrite Hl, Hr.
  unfold perform_integer_promotion. rewrite Hl, Hr.
  inversion P1; subst; inversion P2; subst.
  - split; reflexivity.
  - destruct r2, u2; cbn; rewrite ?Hl, ?Hr; cbn; rewrite ?Hl, ?Hr; auto.
  - destruct r1, u1; cbn; rewrite ?Hl, ?Hr; cbn; rewrite ?Hl, ?Hr; auto.
  - destruct r1, u1, r2, u2; cbn; rewrite ?Hl, ?Hr; cbn; rewrite ?Hl, ?Hr; auto.
Qed.
(** the operands themselves are only wrapped in conversions *)
Inductive converted : srt -> srt -> Prop :=
| converted_refl s : converted s s
| converted_cast s t d : converted s t -> converted s (Srt SRT_CAST_EXPR (Some d) SPNone [t]).
Lemma promotion_converts s : converted s (perform_integer_promotion s).
Proof. unfold perform_integer_promotion. destruct (srt_dtype s) as [[] |]; repeat constructor. Qed.
Lemma usual_conversion_operands l r : let '(l', r') := perform_usual_arithmetic_conversion l r in
  converted l l' /\ converted r r'.
Proof.
  unfold perform_usual_arithmetic_conversion.
  destruct (srt_dtype l); [| split; constructor]. destruct (srt_dtype r); [| split; constructor].
  destruct (_ || _); [split; constructor |].
  pose proof (promotion_converts l) as Pl. pose proof (promotion_converts r) as Pr.
  destruct (srt_dtype (perform_integer_promotion l)); [| split; assumption].
  destruct (srt_dtype (perform_integer_promotion r)); [| split; assumption].
  repeat match goal with |- context [if ?b then _ else _] => destruct b end; split; try assumption; now constructor.
Qed.
