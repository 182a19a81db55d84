(** Proofs for C44: registers that begin together in generated code *)
From Verif Require Import Base ImmcModel ImmcSem LabelSpec RegSpec RegProofs RegProofs2 RegProofs6 OrderProofs OrderProofs2.
Local Open Scope Z_scope.

(** at [p] a register above [s] is written, none from [s] on was written before: the allocator begins [s] here *)
Definition passed (fn : list immc) (p : nat) (s : Z) : Prop :=
  exists c w, nth_error fn p = Some c /\ writes c = Some w /\ s < w /\ forall q c' t, (q < p)%nat -> nth_error fn q = Some c' -> writes c' = Some t -> t < s.
Definition idle (fn : list immc) (p : nat) (s : Z) : Prop := passed fn p s /\ forall q c, (p < q)%nat -> nth_error fn q = Some c -> ~ In s (reads c).
Definition paced (fn : list immc) : Prop :=
  (forall p s t, 0 <= s -> 0 <= t -> idle fn p s -> idle fn p t -> s = t) /\
  (forall p p' s s', 0 <= s -> 0 <= s' -> (p < p')%nat -> idle fn p s -> idle fn p' s' -> exists q c, (p < q < p')%nat /\ nth_error fn q = Some c /\ writes c = None).

Section At.
Variable fn : list immc.
Notation sits := (sits fn).
Notation written := (written fn).
Definition later_read (p j : nat) (s : Z) : Prop := exists q c, (p < q < j)%nat /\ nth_error fn q = Some c /\ In s (reads c).
Definition later_none (p j : nat) : Prop := exists q c, (p < q < j)%nat /\ nth_error fn q = Some c /\ writes c = None.
Lemma later_read_more p j j' s : later_read p j s -> (j <= j')%nat -> later_read p j' s.
Proof. intros (q & c & B & H) L. exists q, c. split; [lia | exact H]. Qed.
Lemma later_none_more p j j' : later_none p j -> (j <= j')%nat -> later_none p j'.
Proof. intros (q & c & B & H) L. exists q, c. split; [lia | exact H]. Qed.
Lemma code_top n0 cs n1 A R : code n0 cs n1 A R -> forall i, sits i cs -> n0 < n1 -> written i (i + length cs) n1.
Proof.
  induction 1 as [n | n0 cs n1 A R A' R' C IH S1 S2 S3 | n0 c1 n1 A1 R1 c2 n2 A2 R2 C1 IH1 C2 IH2 | n0 cs n1 A R c n2 W C IH Sc F S1 S2 | n0 cs n1 A R c s C IH Sc Wr I S1 S2
    | n0 cs n1 A R c d s n2 W C IH Sc Wr I S1 Sd F S2 I2 S3
    | n0 c1 n1 A1 R1 j lf c2 n2 A2 R2 d1 jm le lbf c3 n3 A3 R3 d2 lbe C1 IH1 Jj S1 S1' C2 IH2 Sd1 Wd1 S2 S2' Jm Lf C3 IH3 Sd2 Wd2 S3 S3' Le
    | n0 c1 n1 A1 R1 j1 l c2 n2 A2 R2 j2 d1 jm le lb d2 lbe C1 IH1 J1 S1 S1' C2 IH2 J2 S2 S2' Sd1 Wd1 Rd1 Jm Lb Sd2 Wd2 Rd2 Le]; intros i H N.
  - lia.
  - auto.
  - apply sits_app in H as [H1 H2]. rewrite app_length, Nat.add_assoc. pose proof (code_basic fn _ _ _ _ _ C2 _ H2) as [Y1 _ _ _ _]. destruct (Z.eq_dec n1 n2) as [-> | D].
    + eapply written_more; [exact (IH1 _ H1 N) | lia | lia].
    + eapply written_more; [apply IH2; [exact H2 | lia] | lia | lia].
  - apply sits_app in H as [H1 H2]. apply sits_cons in H2 as [H2 _]. rewrite app_length, Nat.add_assoc. cbn [length]. destruct F as [(Wn & -> & _) | (Ws & -> & _)].
    + eapply written_more; [exact (IH _ H1 N) | lia | lia].
    + eapply written_more; [eapply written_one; [exact H2 | exact Ws] | lia | lia].
  - apply sits_app in H as [H1 H2]. rewrite app_length, Nat.add_assoc. eapply written_more; [exact (IH _ H1 N) | lia | lia].
  - apply sits_app in H as [H1 H2]. apply sits_cons in H2 as [H2 H3]. apply sits_cons in H3 as [H3 _]. rewrite app_length, Nat.add_assoc. cbn [length]. destruct F as [(Wn & -> & _) | (Ws & -> & _)].
    + eapply written_more; [exact (IH _ H1 N) | lia | lia].
    + eapply written_more; [eapply written_one; [exact H3 | exact Ws] | lia | lia].
  - apply sits_app in H as [H1 H]. apply sits_cons in H as [Hj H]. apply sits_app in H as [H2 H]. apply sits_cons in H as [Hd H]. apply sits_cons in H as [Hm H]. apply sits_cons in H as [Hf H]. apply sits_app in H as [H3 H]. apply sits_cons in H as [Hd2 _].
    pose proof (code_basic fn _ _ _ _ _ C2 _ H2) as [Y1 _ _ _ _]. pose proof (code_basic fn _ _ _ _ _ C3 _ H3) as [Z1 _ _ _ _].
    rewrite !app_length. cbn [length]. destruct (Z.eq_dec n2 n3) as [E | D]; [| eapply written_more; [apply IH3; [exact H3 | lia] | cbn [length]; lia | cbn [length]; lia]].
    subst n3. destruct (Z.eq_dec (n1 + 1) n2) as [E | D]; [rewrite <- E; eapply written_more; [eapply written_one; [exact Hd | exact Wd1] | lia | lia] | eapply written_more; [apply IH2; [exact H2 | lia] | lia | lia]].
  - apply sits_app in H as [H1 H]. apply sits_cons in H as [Hj H]. apply sits_app in H as [H2 H]. apply sits_cons in H as [Hj2 H]. apply sits_cons in H as [Hd H].
    rewrite !app_length. cbn [length]. eapply written_more; [eapply written_one; [exact Hd | exact Wd1] | lia | lia].
Qed.
Lemma above n0 cs n1 A R i k p r : code n0 cs n1 A R -> sits k cs -> (i <= k)%nat -> (k + length cs <= p)%nat -> n0 < r -> (forall t, written i p t -> t < r) -> n1 < r.
Proof.
  intros C H B1 B2 L Low. destruct (Z_lt_le_dec n1 r) as [Q | Q]; [exact Q |]. assert (T := code_top _ _ _ _ _ C _ H ltac:(lia)). specialize (Low n1 ltac:(eapply written_more; [exact T | lia | lia])). lia.
Qed.
Lemma low_after i k p r : (forall t, written i p t -> t < r) -> (i <= k)%nat -> forall t, written k p t -> t < r.
Proof. intros L B t T. apply L. eapply written_more; [exact T | lia | lia]. Qed.
Lemma again_low i p q c w r : (forall t, written i p t -> t < r) -> (i <= q < p)%nat -> nth_error fn q = Some c -> writes c = Some w -> w < r.
Proof. intros L B E W. apply L. exists q, c. auto. Qed.
Lemma code_passed n0 cs n1 A R : code n0 cs n1 A R -> forall i, sits i cs -> forall p c w s, (i <= p < i + length cs)%nat -> nth_error fn p = Some c -> writes c = Some w -> n0 < s < w ->
  (forall t, written i p t -> t < s) -> (later_read p (i + length cs) s \/ In s R) /\ later_none p (i + length cs).
Proof.
  induction 1 as [n | n0 cs n1 A R A' R' C IH S1 S2 S3 | n0 c1 n1 A1 R1 c2 n2 A2 R2 C1 IH1 C2 IH2 | n0 cs n1 A R c n2 W C IH Sc F S1 S2 | n0 cs n1 A R c s C IH Sc Wr I S1 S2
    | n0 cs n1 A R c d s n2 W C IH Sc Wr I S1 Sd F S2 I2 S3
    | n0 c1 n1 A1 R1 j lf c2 n2 A2 R2 d1 jm le lbf c3 n3 A3 R3 d2 lbe C1 IH1 Jj S1 S1' C2 IH2 Sd1 Wd1 S2 S2' Jm Lf C3 IH3 Sd2 Wd2 S3 S3' Le
    | n0 c1 n1 A1 R1 j1 l c2 n2 A2 R2 j2 d1 jm le lb d2 lbe C1 IH1 J1 S1 S1' C2 IH2 J2 S2 S2' Sd1 Wd1 Rd1 Jm Lb Sd2 Wd2 Rd2 Le]; intros i H p x w r B E Wx Rr Low.
  - cbn in B. lia.
  - destruct (IH i H p x w r B E Wx Rr Low) as [[L | I] N]; split; auto.
  - apply sits_app in H as [H1 H2]. rewrite app_length, Nat.add_assoc in *. destruct (Nat.lt_ge_cases p (i + length c1)) as [Lt | Ge].
    + destruct (IH1 _ H1 p x w r ltac:(lia) E Wx Rr Low) as [[L | I] N]; (split; [| eapply later_none_more; [exact N | lia]]); [left; eapply later_read_more; [exact L | lia] | right; apply in_app_iff; auto].
    + assert (n1 < r) by (eapply above; [exact C1 | exact H1 | | | | exact Low]; lia).
      destruct (IH2 _ H2 p x w r ltac:(lia) E Wx ltac:(lia) (low_after i (i + length c1)%nat p r Low ltac:(lia))) as [[L | I] N]; (split; [| exact N]); [left; exact L | right; apply in_app_iff; auto].
  - apply sits_app in H as [H1 H2]. apply sits_cons in H2 as [H2 _]. rewrite app_length, Nat.add_assoc in *. cbn [length] in *. destruct (Nat.lt_ge_cases p (i + length cs)) as [Lt | Ge].
    + destruct (IH _ H1 p x w r ltac:(lia) E Wx Rr Low) as [[L | I] N]; (split; [left | eapply later_none_more; [exact N | lia]]); [eapply later_read_more; [exact L | lia] |].
      exists (i + length cs)%nat, c. split; [lia | auto].
    + exfalso. assert (p = (i + length cs)%nat) by lia. subst p. assert (n1 < r) by (eapply above; [exact C | exact H1 | | | | exact Low]; lia). assert (x = c) by congruence. subst x. destruct F as [(Wn & _) | (Ws & _)]; [congruence |]. assert (w = n1 + 1) by congruence. lia.
  - apply sits_app in H as [H1 H2]. apply sits_cons in H2 as [H2 _]. rewrite app_length, Nat.add_assoc in *. cbn [length] in *. destruct (Nat.lt_ge_cases p (i + length cs)) as [Lt | Ge].
    + destruct (IH _ H1 p x w r ltac:(lia) E Wx Rr Low) as [[L | I'] N]; (split; [left | eapply later_none_more; [exact N | lia]]); [eapply later_read_more; [exact L | lia] |].
      exists (i + length cs)%nat, c. split; [lia | auto].
    + exfalso. assert (p = (i + length cs)%nat) by lia. subst p. assert (x = c) by congruence. subst x. assert (w = s) by congruence. subst w. pose proof (code_basic fn _ _ _ _ _ C _ H1) as [_ _ X _ _]. destruct (X s I) as [_ T]. specialize (Low _ T). lia.
  - apply sits_app in H as [H1 H2]. apply sits_cons in H2 as [H2 H3]. apply sits_cons in H3 as [H3 _]. rewrite app_length, Nat.add_assoc in *. cbn [length] in *. destruct (Nat.lt_ge_cases p (i + length cs)) as [Lt | Ge].
    + destruct (IH _ H1 p x w r ltac:(lia) E Wx Rr Low) as [[L | I'] N]; (split; [left | eapply later_none_more; [exact N | lia]]); [eapply later_read_more; [exact L | lia] |].
      destruct (S3 _ I') as [J | [J _]]; [exists (i + length cs)%nat, c | exists (S (i + length cs)), d]; (split; [lia | auto]).
    + exfalso. assert (n1 < r \/ p = (i + length cs)%nat) as [D | D] by (destruct (Nat.eq_dec p (i + length cs)); [auto | left; eapply above; [exact C | exact H1 | | | | exact Low]; lia]).
      * destruct (Nat.eq_dec p (i + length cs)) as [Q | Q].
        -- subst p. assert (x = c) by congruence. subst x. assert (w = s) by congruence. subst w. pose proof (code_basic fn _ _ _ _ _ C _ H1) as [_ _ X _ _]. destruct (X s I) as [_ T]. specialize (Low _ T). lia.
        -- assert (p = S (i + length cs)) by lia. subst p. assert (x = d) by congruence. subst x. destruct F as [(Wn & _) | (Ws & _)]; [congruence |]. assert (w = n1 + 1) by congruence. lia.
      * subst p. assert (x = c) by congruence. subst x. assert (w = s) by congruence. subst w. pose proof (code_basic fn _ _ _ _ _ C _ H1) as [_ _ X _ _]. destruct (X s I) as [_ T]. specialize (Low _ T). lia.
  - apply sits_app in H as [H1 H]. apply sits_cons in H as [Hj H]. apply sits_app in H as [H2 H]. apply sits_cons in H as [Hd H]. apply sits_cons in H as [Hm H]. apply sits_cons in H as [Hf H]. apply sits_app in H as [H3 H]. apply sits_cons in H as [Hd2 H]. apply sits_cons in H as [He _].
    assert (Len : length (c1 ++ [j] ++ c2 ++ [d1; jm; lbf] ++ c3 ++ [d2; lbe]) = (length c1 + 1 + length c2 + 3 + length c3 + 2)%nat) by (rewrite !app_length; cbn [length]; lia). rewrite Len in *. clear Len.
    destruct Jj as (_ & _ & Wj). destruct Jm as (_ & _ & Wm & _). pose proof (label_writes _ _ Lf) as Wf. pose proof (label_writes _ _ Le) as We.
    set (k1 := (i + length c1)%nat) in *. set (k2 := (S k1 + length c2)%nat) in *. set (k3 := (S (S (S k2)) + length c3)%nat) in *.
    assert (Top : (k1 <= p)%nat -> n1 < r) by (intros G; eapply above; [exact C1 | exact H1 | | | | exact Low]; subst k1; lia).
    destruct (Nat.lt_ge_cases p k1) as [Lt | G1].
    + destruct (IH1 _ H1 p x w r ltac:(subst k1; lia) E Wx Rr Low) as [[L | I'] N]; fold k1 in N; (split; [left | eapply later_none_more; [exact N | subst k1; lia]]); [eapply later_read_more; [exact L | subst k1; lia] |].
      exists k1, j. split; [subst k1; lia | auto].
    + specialize (Top G1). destruct (Nat.eq_dec p k1) as [-> | N1]; [assert (x = j) by congruence; congruence |].
      destruct (Nat.lt_ge_cases p k2) as [Lt | G2].
      { destruct (Z.eq_dec r (n1 + 1)) as [-> | D].
        - split; [right; now left |]. exists (S k2), jm. split; [subst k1 k2; lia | auto].
        - destruct (IH2 _ H2 p x w r ltac:(subst k1 k2; lia) E Wx ltac:(lia) (low_after i (S k1) p r Low ltac:(subst k1; lia))) as [[L | I'] N]; fold k2 in N; (split; [left | eapply later_none_more; [exact N | subst k1 k2; lia]]); [eapply later_read_more; [exact L | subst k1 k2; lia] |].
          exists k2, d1. split; [subst k1 k2; lia | auto]. }
      assert (Top2 : n1 + 1 < r -> n2 < r) by (intros Q; eapply above; [exact C2 | exact H2 | | | exact Q | exact Low]; subst k1 k2; lia).
      destruct (Nat.eq_dec p k2) as [-> | N2]; [assert (x = d1) by congruence; subst x; assert (w = n1 + 1) by congruence; lia |].
      assert (Q : n1 + 1 < r) by (eapply again_low; [exact Low | | exact Hd | exact Wd1]; subst k1 k2; lia). specialize (Top2 Q).
      destruct (Nat.eq_dec p (S k2)) as [-> | N3]; [assert (x = jm) by congruence; congruence |]. destruct (Nat.eq_dec p (S (S k2))) as [-> | N4]; [assert (x = lbf) by congruence; congruence |].
      destruct (Nat.lt_ge_cases p k3) as [Lt | G3].
      { destruct (IH3 _ H3 p x w r ltac:(subst k1 k2 k3; lia) E Wx ltac:(lia) (low_after i (S (S (S k2))) p r Low ltac:(subst k1 k2; lia))) as [[L | I'] N]; fold k3 in N; (split; [left | eapply later_none_more; [exact N | subst k1 k2 k3; lia]]); [eapply later_read_more; [exact L | subst k1 k2 k3; lia] |].
        exists k3, d2. split; [subst k1 k2 k3; lia | auto]. }
      destruct (Nat.eq_dec p k3) as [-> | N5]; [assert (x = d2) by congruence; subst x; assert (w = n1 + 1) by congruence; lia |].
      assert (p = S k3) by (subst k1 k2 k3; lia). subst p. assert (x = lbe) by congruence. congruence.
  - apply sits_app in H as [H1 H]. apply sits_cons in H as [Hj H]. apply sits_app in H as [H2 H]. apply sits_cons in H as [Hj2 H]. apply sits_cons in H as [Hd H]. apply sits_cons in H as [Hm H]. apply sits_cons in H as [Hb H]. apply sits_cons in H as [Hd2 H]. apply sits_cons in H as [He _].
    assert (Len : length (c1 ++ [j1] ++ c2 ++ [j2; d1; jm; lb; d2; lbe]) = (length c1 + 1 + length c2 + 6)%nat) by (rewrite !app_length; cbn [length]; lia). rewrite Len in *. clear Len.
    destruct J1 as (_ & _ & Wj). destruct J2 as (_ & _ & Wj2). destruct Jm as (_ & _ & Wm & _). pose proof (label_writes _ _ Lb) as Wf. pose proof (label_writes _ _ Le) as We.
    set (k1 := (i + length c1)%nat) in *. set (k2 := (S k1 + length c2)%nat) in *.
    assert (Top : (k1 <= p)%nat -> n1 < r) by (intros G; eapply above; [exact C1 | exact H1 | | | | exact Low]; subst k1; lia).
    destruct (Nat.lt_ge_cases p k1) as [Lt | G1].
    + destruct (IH1 _ H1 p x w r ltac:(subst k1; lia) E Wx Rr Low) as [[L | I'] N]; fold k1 in N; (split; [left | eapply later_none_more; [exact N | subst k1; lia]]); [eapply later_read_more; [exact L | subst k1; lia] |].
      exists k1, j1. split; [subst k1; lia | auto].
    + specialize (Top G1). destruct (Nat.eq_dec p k1) as [-> | N1]; [assert (x = j1) by congruence; congruence |].
      destruct (Nat.lt_ge_cases p k2) as [Lt | G2].
      { destruct (IH2 _ H2 p x w r ltac:(subst k1 k2; lia) E Wx ltac:(lia) (low_after i (S k1) p r Low ltac:(subst k1; lia))) as [[L | I'] N]; fold k2 in N; (split; [left | eapply later_none_more; [exact N | subst k1 k2; lia]]); [eapply later_read_more; [exact L | subst k1 k2; lia] |].
        exists k2, j2. split; [subst k1 k2; lia | auto]. }
      assert (Top2 : n2 < r) by (eapply above; [exact C2 | exact H2 | | | exact Top | exact Low]; subst k1 k2; lia). exfalso.
      destruct (Nat.eq_dec p k2) as [-> | N2]; [assert (x = j2) by congruence; congruence |]. destruct (Nat.eq_dec p (S k2)) as [-> | N3]; [assert (x = d1) by congruence; subst x; assert (w = n2 + 1) by congruence; lia |].
      destruct (Nat.eq_dec p (S (S k2))) as [-> | N4]; [assert (x = jm) by congruence; congruence |]. destruct (Nat.eq_dec p (S (S (S k2)))) as [-> | N5]; [assert (x = lb) by congruence; congruence |].
      destruct (Nat.eq_dec p (S (S (S (S k2))))) as [-> | N6]; [assert (x = d2) by congruence; subst x; assert (w = n2 + 1) by congruence; lia |].
      assert (p = S (S (S (S (S k2))))) by (subst k1 k2; lia). subst p. assert (x = lbe) by congruence. congruence.
Qed.
End At.

(** * One item *)
Section Item.
Variables (P : name -> Prop) (k : item) (n0 n1 : Z).
Hypothesis Ok : ok_item P k n0 n1.
Let K := item_code k.
Definition passed_over (p : nat) (s : Z) : Prop := exists c w, nth_error K p = Some c /\ writes c = Some w /\ n0 < s < w /\ forall t, written K 0 p t -> t < s.
Lemma item_begin p c w : nth_error K p = Some c -> writes c = Some w -> (p < length (fst k))%nat.
Proof.
  intros E W. destruct (Nat.lt_ge_cases p (length (fst k))) as [L | G]; [exact L |]. destruct Ok as (A & R & C & F & _). rewrite Forall_forall in F. destruct (F c (item_after _ _ _ E G)) as (N & _). congruence.
Qed.
Lemma item_len : length K = (length (fst k) + length (snd k))%nat.
Proof. unfold K, item_code. apply app_length. Qed.
Lemma item_none p s : passed_over p s -> later_none K p (length K).
Proof.
  intros (c & w & E & W & B & Low). pose proof (item_begin _ _ _ E W) as L. destruct Ok as (A & R & C & F & _).
  destruct (code_passed K _ _ _ _ _ C 0 (item_sits k) p c w s ltac:(cbn; lia) E W B Low) as [_ N]. cbn [Nat.add] in N. eapply later_none_more; [exact N | rewrite item_len; lia].
Qed.
Lemma item_one p p' s s' : passed_over p s -> passed_over p' s' -> ~ later_read K p (length K) s -> ~ later_read K p' (length K) s' -> s = s'.
Proof.
  intros P1 P2 N1 N2. destruct Ok as (A & R & C & F & O). pose proof (code_basic K _ _ _ _ _ C 0 (item_sits k)) as [_ Sub _ _ _].
  assert (In_R : forall p s, passed_over p s -> ~ later_read K p (length K) s -> In s R /\ forall c js, snd k = c :: js -> ~ In s (reads c)).
  { clear p p' s s' P1 P2 N1 N2. intros p s (c & w & E & W & B & Low) N. pose proof (item_begin _ _ _ E W) as L. split.
    - destruct (code_passed K _ _ _ _ _ C 0 (item_sits k) p c w s ltac:(cbn; lia) E W B Low) as [[Rd | I] _]; [| exact I]. destruct N. cbn [Nat.add] in Rd. eapply later_read_more; [exact Rd | rewrite item_len; lia].
    - intros d js D I. apply N. exists (length (fst k)), d. split; [rewrite item_len, D; cbn; lia |]. split; [| exact I]. unfold K, item_code. rewrite nth_error_app2, Nat.sub_diag, D by lia. reflexivity. }
  destruct (In_R _ _ P1 N1) as [I1 J1]. destruct (In_R _ _ P2 N2) as [I2 J2]. destruct O as [-> | [(r & ->) | (c & js & D & S)]]; [destruct I1 | | destruct (J1 _ _ D (S _ I1))].
  apply Sub in I1. apply Sub in I2. destruct I1 as [<- | []]. destruct I2 as [<- | []]. reflexivity.
Qed.
Lemma item_top : n0 < n1 -> written K 0 (length K) n1.
Proof.
  intros N. destruct Ok as (A & R & C & F & O). eapply written_more; [exact (code_top K _ _ _ _ _ C 0 (item_sits k) N) | lia | cbn; rewrite item_len; lia].
Qed.
End Item.

(** * A function *)
Section Items.
Variables (items : list item) (P : name -> Prop) (lo hi : Z).
Let fn := codes items.
Hypothesis Chain : ok_items P items lo hi.
Lemma items_top : forall l n0 n1, ok_items P l n0 n1 -> n0 < n1 -> exists c, In c (codes l) /\ writes c = Some n1.
Proof.
  induction 1 as [n | k l n0 n1 n2 H1 H2 IH]; intros N; [lia |]. cbn [flat_map]. destruct (earlier_writes _ _ _ _ H2) as [M _]. destruct (Z.eq_dec n1 n2) as [-> | D].
  - destruct (item_top P k _ _ H1 N) as (q & c & _ & E & W). exists c. split; [apply in_app_iff; left; eapply nth_error_In, E | exact W].
  - destruct IH as (c & I & W); [lia |]. exists c. split; [apply in_app_iff; now right | exact W].
Qed.
Lemma idle_item p s pre k post m : lo < s -> idle fn p s -> items = pre ++ k :: post -> ok_items P pre lo m -> (length (codes pre) <= p < length (codes pre) + length (item_code k))%nat ->
  passed_over k m (p - length (codes pre)) s /\ ~ later_read (item_code k) (p - length (codes pre)) (length (item_code k)) s.
Proof.
  intros Lo ((c & w & E & W & Lt & Low) & Nr) Ei C1 B. set (i := length (codes pre)) in *.
  assert (At : forall q, (q < length (item_code k))%nat -> nth_error (item_code k) q = nth_error fn (i + q)) by (intros q Q; symmetry; unfold fn, i; apply (item_at items pre k post); auto).
  assert (S1 : m < s).
  { destruct (Z_lt_le_dec m s) as [Q | Q]; [exact Q |]. destruct (items_top _ _ _ C1 ltac:(lia)) as (d & I & Wd). apply In_nth_error in I as (q & Eq). assert (q < i)%nat by (apply nth_error_Some; congruence).
    specialize (Low q d m ltac:(lia)). unfold fn in Low. rewrite (fn_split items pre k post Ei), nth_error_app1 in Low by (fold i; lia). specialize (Low Eq Wd). lia. }
  split.
  - exists c, w. split; [rewrite At by lia; replace (i + (p - i))%nat with p by lia; exact E |]. split; [exact W |]. split; [lia |].
    intros t (q & d & Q & Eq & Wq). rewrite At in Eq by lia. eapply (Low (i + q)%nat); [lia | exact Eq | exact Wq].
  - intros (q & d & Q & Eq & I). rewrite At in Eq by lia. eapply (Nr (i + q)%nat); [lia | exact Eq | exact I].
Qed.
Lemma prefix_later : forall (l pre : list item) k post pre' k' post' p p', l = pre ++ k :: post -> l = pre' ++ k' :: post' -> (p <= p')%nat ->
  (length (codes pre) <= p < length (codes pre) + length (item_code k))%nat -> (length (codes pre') <= p' < length (codes pre') + length (item_code k'))%nat ->
  (pre = pre' /\ k = k') \/ (length (codes pre) + length (item_code k) <= length (codes pre'))%nat.
Proof.
  induction l as [| x l IH]; intros pre k post pre' k' post' p p' E E' L B B'; [destruct pre; discriminate E |].
  destruct pre as [| y pre]; destruct pre' as [| y' pre']; cbn [app] in E, E'; injection E as E1 E; injection E' as E0 E'.
  - left. split; [reflexivity | congruence].
  - right. cbn [flat_map]. rewrite app_length. rewrite <- E0, E1. cbn. lia.
  - cbn [flat_map] in B, B'. rewrite app_length in B. rewrite <- E0, E1 in B'. cbn in B'. lia.
  - rewrite <- E1, <- E0 in *. clear y y' E1 E0. cbn [flat_map] in B, B' |- *. rewrite app_length in B, B' |- *. rewrite app_length. destruct (IH _ _ _ _ _ _ (p - length (item_code x))%nat (p' - length (item_code x))%nat E E') as [[-> ->] | H]; [lia | lia | lia | auto | right; lia].
Qed.
Lemma idle_bound p s : idle fn p s -> (p < length fn)%nat.
Proof. intros ((c & w & E & _) & _). apply nth_error_Some. congruence. Qed.
Lemma items_paced : lo < 0 -> paced fn.
Proof.
  intros Neg. split.
  - intros p s t S T Is It. destruct (locate_item items p (idle_bound _ _ Is)) as (pre & k & post & Ei & B). destruct (chain_item _ _ _ _ Chain _ _ _ Ei) as (m & m' & C1 & C2 & C3).
    destruct (idle_item _ _ _ _ _ _ (Z.lt_le_trans _ _ _ Neg S) Is Ei C1 B) as [Ps Ns]. destruct (idle_item _ _ _ _ _ _ (Z.lt_le_trans _ _ _ Neg T) It Ei C1 B) as [Pt Nt]. exact (item_one P k m m' C2 _ _ _ _ Ps Pt Ns Nt).
  - intros p p' s s' S T L Is It. destruct (locate_item items p (idle_bound _ _ Is)) as (pre & k & post & Ei & B). destruct (chain_item _ _ _ _ Chain _ _ _ Ei) as (m & m' & C1 & C2 & C3).
    destruct (locate_item items p' (idle_bound _ _ It)) as (pre' & k' & post' & Ei' & B'). destruct (idle_item _ _ _ _ _ _ (Z.lt_le_trans _ _ _ Neg S) Is Ei C1 B) as [Ps Ns].
    destruct (prefix_later _ _ _ _ _ _ _ _ _ Ei Ei' (Nat.lt_le_incl _ _ L) B B') as [[<- <-] | Le].
    + exfalso. destruct (idle_item _ _ _ _ _ _ (Z.lt_le_trans _ _ _ Neg T) It Ei C1 B') as [Pt Nt]. pose proof (item_one P k m m' C2 _ _ _ _ Ps Pt Ns Nt) as Q. subst s'.
      destruct Is as ((c & w & E & W & Lt & _) & _). destruct It as ((_ & _ & _ & _ & _ & Low) & _). specialize (Low p c w L E W). lia.
    + destruct (item_none P k m m' C2 _ _ Ps) as (q & c & Q & Eq & Wq). exists (length (codes pre) + q)%nat, c. split; [lia |]. split; [| exact Wq]. unfold fn. rewrite (item_at items pre k post) by (auto; lia). exact Eq.
Qed.
End Items.
