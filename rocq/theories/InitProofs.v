(** What initialising an object does to memory *)
From Verif Require Import Base SrtModel X64Isa X64Decode OpSpec TypeSpec CSem ElabProofs IsaProofs IsaMemProofs ExprProofs2 StmtProofs StmtProofs2 InitSpec.
Open Scope Z_scope.

Definition only (M M' : memory) (lo hi : Z) : Prop := forall b, 0 <= b -> ~ (lo <= b < hi) -> peek M' b = peek M b.
Lemma only_refl M lo hi : only M M lo hi.
Proof. intros b _ _. reflexivity. Qed.
Lemma only_trans M1 M2 M3 lo hi lo1 hi1 lo2 hi2 : only M1 M2 lo1 hi1 -> only M2 M3 lo2 hi2 -> lo <= lo1 -> hi1 <= hi -> lo <= lo2 -> hi2 <= hi -> only M1 M3 lo hi.
Proof. intros A B ? ? ? ? b Hb N. rewrite B, A by lia. reflexivity. Qed.
Lemma only_holds M M' lo hi a n v : only M M' lo hi -> 0 <= a -> a + n <= lo \/ hi <= a -> holds M a n v -> holds M' a n v.
Proof. intros O A D [H1 H2]. split; [exact H1 |]. intros i Hi. rewrite <- H2 by exact Hi. apply O; lia. Qed.

Fixpoint laid_out_size T d (H : laid_out T d) {struct H} : 0 <= sizeof d
with members_out_size T a ms b (H : members_out T a ms b) {struct H} : a <= b.
Proof.
  - destruct H as [d K | e n N L | d ms S M].
    + destruct d; try (now destruct K); cbn; lia.
    + apply laid_out_size in L. cbn [sizeof]. lia.
    + exact (members_out_size _ _ _ _ M).
  - destruct H as [a b L | a b n t off ms A L M]; [exact L |]. apply laid_out_size in L. apply members_out_size in M. lia.
Qed.
Lemma laid_array T e n : laid_out T (DTYPE_ARRAY e n) -> 0 <= n /\ laid_out T e.
Proof. intros H. inversion H; subst; [exfalso; auto | auto | discriminate]. Qed.
Lemma laid_struct T d ms : struct_members T d = Some ms -> laid_out T d -> members_out T 0 ms (sizeof d).
Proof. intros E H. inversion H; subst; [destruct d; try discriminate E; now destruct H0 | discriminate E | congruence]. Qed.
Lemma members_cons T a b n t off ms : members_out T a ((n, t, off) :: ms) b -> a <= off /\ laid_out T t /\ members_out T (off + sizeof t) ms b.
Proof. intros H. inversion H; subst. auto. Qed.
(** a member and what is after it *)
Lemma member_out T : forall ms a b i n t off, members_out T a ms b -> nth_error ms i = Some (n, t, off) -> a <= off /\ off + sizeof t <= b /\ laid_out T t.
Proof.
  induction ms as [| [[n0 t0] off0] ms IH]; intros a b i n t off M E; [now destruct i |]. apply members_cons in M as (M1 & M2 & M3). destruct i as [| i].
  - injection E as <- <- <-. assert (X := members_out_size _ _ _ _ M3). auto.
  - destruct (IH _ _ _ _ _ _ M3 E) as (A & B & L). assert (Y := laid_out_size _ _ M2). split; [lia | auto].
Qed.
Lemma kind_size d u z : kind d = Some (u, z) -> sizeof d = size_bytes z.
Proof. destruct d; try discriminate; intros H; injection H as <- <-; reflexivity. Qed.
Lemma element_range i n m : 0 <= m -> (i < n)%nat -> 0 <= Z.of_nat i * m /\ Z.of_nat i * m + m <= Z.of_nat n * m.
Proof. nia. Qed.

Section Init.
Variables (call : caller) (P : places) (Sc : scopes) (val : srt -> Z).
Notation T := (s_tags Sc).
Definition steady (e : srt) : Prop := forall W v W', eval call P Sc e W = Ok (v, W') -> v = val e /\ w_mem W' = w_mem W.
Record done (s : srt) (d : dtype) (a : Z) (M M' : memory) : Prop := {
  d_only : only M M' a (a + sizeof d);
  d_scalars : forall off t e, scalar_at T s d off t e -> 0 <= off /\ off + sizeof t <= sizeof d /\ 0 <= a + off /\ exists u z, kind t = Some (u, z) /\ holds M' (a + off) (size_bytes z) (low z (val e));
  d_chars : forall off b, char_at T s d off b -> 0 <= off < sizeof d /\ 0 <= a + off /\ peek M' (a + off) = b mod 256 }.
Lemma done_later s d a M M1 M2 lo hi : done s d a M M1 -> only M1 M2 lo hi -> a + sizeof d <= lo \/ hi <= a ->
  (forall off t e, scalar_at T s d off t e -> 0 <= off /\ off + sizeof t <= sizeof d /\ 0 <= a + off /\ exists u z, kind t = Some (u, z) /\ holds M2 (a + off) (size_bytes z) (low z (val e))) /\
  (forall off b, char_at T s d off b -> 0 <= off < sizeof d /\ 0 <= a + off /\ peek M2 (a + off) = b mod 256).
Proof.
  intros D O L. split.
  - intros off t e S. destruct (d_scalars _ _ _ _ _ D _ _ _ S) as (A1 & A2 & A3 & u & z & K & H). repeat (split; [assumption |]). exists u, z. split; [exact K |].
    eapply only_holds; [exact O | exact A3 | | exact H]. rewrite <- (kind_size _ _ _ K). lia.
  - intros off b S. destruct (d_chars _ _ _ _ _ D _ _ S) as (A1 & A2 & A3). repeat (split; [assumption |]). rewrite <- A3. apply O; lia.
Qed.
Lemma put_chars_peek : forall l m a m', put_chars m a l = Some m' ->
  only m m' a (a + Z.of_nat (length l)) /\ forall i b, nth_error l i = Some b -> 0 <= a + Z.of_nat i /\ peek m' (a + Z.of_nat i) = b mod 256.
Proof.
  induction l as [| c l IH]; intros m a m' H; cbn [put_chars] in H.
  - injection H as <-. split; [apply only_refl | intros i b E; now destruct i].
  - destruct (store m S1 a c) as [m1 |] eqn:St; [| discriminate H]. destruct (IH _ _ _ H) as [O F].
    assert (V : 0 <= a /\ m1 = poke m a (c mod 256)). { unfold store in St. destruct (valid m a (nbytes S1)) eqn:V; [| discriminate St]. injection St as <-. unfold valid in V. split; [lia | reflexivity]. }
    destruct V as [V ->]. split.
    + intros b Hb N. rewrite O by (cbn [length] in N; lia). rewrite peek_poke by lia. destruct (b =? a) eqn:E; [cbn [length] in N; lia | reflexivity].
    + intros [| i] b E.
      * injection E as <-. rewrite Z.add_0_r. split; [exact V |]. rewrite O by lia. rewrite peek_poke by lia. now rewrite Z.eqb_refl.
      * destruct (F i b E) as [F1 F2]. replace (a + Z.of_nat (S i)) with (a + 1 + Z.of_nat i) by lia. auto.
Qed.
Notation init := (initialise call P Sc).
Definition all_done (s : srt) : Prop := forall d a W W', init s d a W = Ok W' -> laid_out T d -> (forall off t e, scalar_at T s d off t e -> steady e) -> done s d a (w_mem W) (w_mem W').
Lemma elements_all e : laid_out T e -> forall l, Forall all_done l -> (forall c off t x, In c l -> scalar_at T c e off t x -> steady x) -> forall a W W', init_elements call P Sc e l a W = Ok W' ->
  only (w_mem W) (w_mem W') a (a + Z.of_nat (length l) * sizeof e) /\
  forall i c, nth_error l i = Some c ->
    let a := a + Z.of_nat i * sizeof e in
    (forall off t x, scalar_at T c e off t x -> 0 <= off /\ off + sizeof t <= sizeof e /\ 0 <= a + off /\ exists u z, kind t = Some (u, z) /\ holds (w_mem W') (a + off) (size_bytes z) (low z (val x))) /\
    (forall off b, char_at T c e off b -> 0 <= off < sizeof e /\ 0 <= a + off /\ peek (w_mem W') (a + off) = b mod 256).
Proof.
  intros L l Al. assert (Sz := laid_out_size _ _ L). induction Al as [| c l Hc Al IH]; intros St a W W' H; cbn [init_elements] in H.
  - injection H as <-. split; [apply only_refl | intros i c E; now destruct i].
  - apply bind_ok in H as (W1 & H1 & H2). assert (D1 := Hc _ _ _ _ H1 L (fun off t x => St c off t x (or_introl eq_refl))).
    destruct (IH (fun c' off t x I => St c' off t x (or_intror I)) _ _ _ H2) as [O2 F2]. split.
    + eapply only_trans; [exact (d_only _ _ _ _ _ D1) | exact O2 | ..]; cbn [length]; nia.
    + intros [| i] c' E.
      * injection E as <-. cbv zeta. replace (a + Z.of_nat 0 * sizeof e) with a by lia. eapply done_later; [exact D1 | exact O2 | left; lia].
      * specialize (F2 i c' E). cbv zeta in *. replace (a + Z.of_nat (S i) * sizeof e) with (a + sizeof e + Z.of_nat i * sizeof e) by lia. exact F2.
Qed.
Lemma members_all base : forall l, Forall all_done l -> forall ms lo hi W W', members_out T lo ms hi ->
  (forall i c n t0 off0 off t x, nth_error l i = Some c -> nth_error ms i = Some (n, t0, off0) -> scalar_at T c t0 off t x -> steady x) ->
  init_members call P Sc base l ms W = Ok W' ->
  only (w_mem W) (w_mem W') (base + lo) (base + hi) /\
  forall i c n d off0, nth_error l i = Some c -> nth_error ms i = Some (n, d, off0) ->
    let a := base + off0 in
    (forall off t x, scalar_at T c d off t x -> 0 <= off /\ off + sizeof t <= sizeof d /\ 0 <= a + off /\ exists u z, kind t = Some (u, z) /\ holds (w_mem W') (a + off) (size_bytes z) (low z (val x))) /\
    (forall off b, char_at T c d off b -> 0 <= off < sizeof d /\ 0 <= a + off /\ peek (w_mem W') (a + off) = b mod 256).
Proof.
  intros l Al. induction Al as [| c l Hc Al IH]; intros [| [[n t] off] ms] lo hi W W' M St H; cbn [init_members] in H; try discriminate H.
  - injection H as <-. split; [apply only_refl | intros i c n d o E; now destruct i].
  - apply bind_ok in H as (W1 & H1 & H2). apply members_cons in M as (H6 & H7 & H8). assert (Sz := laid_out_size _ _ H7). assert (Hm := members_out_size _ _ _ _ H8).
    assert (D1 := Hc _ _ _ _ H1 H7 (fun o t' x S => St 0%nat c n t off o t' x eq_refl eq_refl S)).
    destruct (IH ms _ _ _ _ H8 (fun i c' n' t' o' o'' t'' x I J => St (S i) c' n' t' o' o'' t'' x I J) H2) as [O2 F2]. split.
    + eapply only_trans; [exact (d_only _ _ _ _ _ D1) | exact O2 | ..]; lia.
    + intros [| i] c' n' d' o' E E'.
      * injection E as <-. injection E' as <- <- <-. cbv zeta. eapply done_later; [exact D1 | exact O2 | left; lia].
      * exact (F2 i c' n' d' o' E E').
Qed.
Lemma scalar_element o p cs e n off t x : scalar_at T (Srt SRT_INIT o p cs) (DTYPE_ARRAY e n) off t x ->
  string_init cs = None /\ exists i c k, off = Z.of_nat i * sizeof e + k /\ nth_error cs i = Some c /\ scalar_at T c e k t x.
Proof. intros S. inversion S; subst; [exfalso; auto | eauto 7 | discriminate]. Qed.
Lemma char_element o p cs e n off b : char_at T (Srt SRT_INIT o p cs) (DTYPE_ARRAY e n) off b ->
  (exists l i, string_init cs = Some l /\ nth_error l i = Some b /\ off = Z.of_nat i) \/
  string_init cs = None /\ exists i c k, off = Z.of_nat i * sizeof e + k /\ nth_error cs i = Some c /\ char_at T c e k b.
Proof. intros S. inversion S; subst; [eauto 7 | eauto 9 | discriminate]. Qed.
Lemma scalar_member o p cs d ms off t x : struct_members T d = Some ms -> scalar_at T (Srt SRT_INIT o p cs) d off t x ->
  exists i c m t' base k, off = base + k /\ nth_error cs i = Some c /\ nth_error ms i = Some (m, t', base) /\ scalar_at T c t' k t x.
Proof. intros E S. inversion S; subst; [match goal with K : kind _ <> None |- _ => destruct t; try discriminate E; now destruct K end | discriminate E |]. assert (ms0 = ms) by congruence. subst. eauto 10. Qed.
Lemma char_member o p cs d ms off b : struct_members T d = Some ms -> char_at T (Srt SRT_INIT o p cs) d off b ->
  exists i c m t' base k, off = base + k /\ nth_error cs i = Some c /\ nth_error ms i = Some (m, t', base) /\ char_at T c t' k b.
Proof. intros E S. inversion S; subst; try discriminate E. assert (ms0 = ms) by congruence. subst. eauto 10. Qed.
Lemma string_eq cs : string_init cs = is_string cs.
Proof. reflexivity. Qed.
Lemma init_does : forall s, all_done s.
Proof.
  fix IH 1. intros [ty o p cs] d a W W' H L St. assert (Al : Forall all_done cs). { clear -IH. induction cs as [| c cs IHl]; constructor; [apply IH | exact IHl]. } clear IH.
  destruct ty; try discriminate H. rewrite init_eq in H. unfold init' in H.
  assert (Scalar : kind d <> None -> match cs with [e] => do _ <- check (alike (Some d) (srt_dtype e)); do (v, W) <- eval call P Sc e W; if in_space a (sizeof d) then store_as d a v W else UB | _ => Fatal end = Ok W' -> done (Srt SRT_INIT o p cs) d a (w_mem W) (w_mem W')).
  { clear H. intros K H. destruct cs as [| e [| ? ?]]; try discriminate H. apply bind_ok in H as (_ & _ & H). apply bind_ok in H as ([v W1] & Ev & H). destruct (in_space _ _); [| discriminate H].
    destruct (St 0 d e (sa_scalar _ _ _ _ _ K) _ _ _ Ev) as [-> Em]. unfold store_as in H. destruct (kind d) as [[u z] |] eqn:Kd; [| discriminate H]. destruct (store (w_mem W1) z a (val e)) as [m |] eqn:Sm; [| discriminate H]. injection H as <-.
    rewrite Em in Sm. assert (Ac : accessible (w_mem W) a (size_bytes z)). { unfold store in Sm. destruct (valid _ _ _) eqn:V; [| discriminate Sm]. now apply valid_accessible in V. }
    destruct (store_written _ _ _ (val e) Ac) as (m' & Sm' & Wr). rewrite Sm in Sm'. injection Sm' as <-. assert (Sz := kind_size _ _ _ Kd). destruct Ac as [A0 _].
    split; cbn [w_mem set_wmem].
    - intros b Hb N. destruct Wr as [_ Wr]. rewrite Wr by exact Hb. rewrite Sz in N. destruct (_ && _) eqn:B; [lia | reflexivity].
    - intros off t x S. assert (off = 0 /\ t = d /\ x = e) as (-> & -> & ->). { inversion S; subst; [auto | discriminate Kd | destruct d; try discriminate Kd; discriminate]. }
      rewrite Z.add_0_r. repeat (split; [lia |]). exists u, z. split; [exact Kd |]. now apply (written_holds (w_mem W)).
    - intros off b S. exfalso. inversion S; subst; try discriminate Kd. destruct d; try discriminate Kd; discriminate. }
  destruct d as [ | | | | | | | | pt | e n | nm nb al | ms nb al | nm | ms | ps pt | pt]; try (apply Scalar; [intros K; discriminate K | exact H]).
  - destruct cs as [| e [| ? ?]]; try discriminate H. apply bind_ok in H as ([] & Al' & _). apply check_ok in Al'. destruct (srt_dtype e); cbn in Al'; discriminate Al'.
  - clear Scalar. apply laid_array in L as [N L]. assert (Sz := laid_out_size _ _ L). destruct (is_string cs) as [l |] eqn:Es.
    + destruct (negb _); [discriminate H |]. destruct (_ =? _) eqn:Ln in H; [| discriminate H]. destruct (put_chars _ _ _) as [m |] eqn:Pc; [| discriminate H]. injection H as <-.
      destruct (put_chars_peek _ _ _ _ Pc) as [O F]. rewrite Z.eqb_eq in Ln. split; cbn [w_mem set_wmem].
      * now rewrite <- Ln.
      * intros off t x S. apply scalar_element in S as (S & _). rewrite string_eq in S. congruence.
      * intros off b S. apply char_element in S as [(l0 & i & S & I & ->) | [S _]]; rewrite string_eq in S; [| congruence]. assert (l0 = l) by congruence. subst l0. destruct (F _ _ I) as [F1 F2].
        assert (i < length l)%nat by (apply nth_error_Some; congruence). split; [rewrite <- Ln; lia | auto].
    + destruct (_ =? n) eqn:Ln; [| discriminate H]. assert (Ec : Z.of_nat (length cs) = n) by lia.
      destruct (elements_all e L cs Al) with (a := a) (W := W) (W' := W') as [O F]; [| exact H |].
      { intros c off t x I S. apply In_nth_error in I as (i & I). eapply St. eapply (sa_element _ _ _ _ _ _ i); [exact Es | exact I | exact S]. }
      split.
      * cbn [sizeof]. replace (sizeof e * n) with (Z.of_nat (length cs) * sizeof e) by lia. exact O.
      * intros off t x S. apply scalar_element in S as (_ & i & c & k & -> & I & S). assert (H0 : (i < length cs)%nat) by (apply nth_error_Some; congruence). destruct (F _ _ I) as [F1 _]. destruct (F1 _ _ _ S) as (B1 & B2 & B3 & B4).
        destruct (element_range i (length cs) (sizeof e) Sz H0). cbn [sizeof]. rewrite Z.add_assoc. repeat (split; [lia |]). exact B4.
      * intros off b S. apply char_element in S as [(l0 & i & S & _) | (_ & i & c & k & -> & I & S)]; [rewrite string_eq in S; congruence |]. assert (H0 : (i < length cs)%nat) by (apply nth_error_Some; congruence). destruct (F _ _ I) as [_ F1]. destruct (F1 _ _ S) as (B1 & B2 & B3).
        destruct (element_range i (length cs) (sizeof e) Sz H0). cbn [sizeof]. rewrite Z.add_assoc. repeat (split; [lia |]). exact B3.
  - clear Scalar. destruct (struct_members T _) as [ms |] eqn:Em; [| discriminate H]. assert (M := laid_struct _ _ _ Em L).
    destruct (members_all a cs Al ms 0 _ W W' M) as [O F]; [| exact H |].
    { intros i c n t0 off0 off t x I J S. eapply St. eapply sa_member; eassumption. }
    split.
    * rewrite Z.add_0_r in O. exact O.
    * intros off t x S. destruct (scalar_member _ _ _ _ _ _ _ _ Em S) as (i & c & m & t' & base & k & -> & I & J & S'). destruct (F _ _ _ _ _ I J) as [F1 _]. destruct (F1 _ _ _ S') as (B1 & B2 & B3 & B4).
      destruct (member_out _ _ _ _ _ _ _ _ M J) as (C1 & C2 & _). rewrite Z.add_assoc. repeat (split; [lia |]). exact B4.
    * intros off b S. destruct (char_member _ _ _ _ _ _ _ Em S) as (i & c & m & t' & base & k & -> & I & J & S'). destruct (F _ _ _ _ _ I J) as [_ F1]. destruct (F1 _ _ S') as (B1 & B2 & B3).
      destruct (member_out _ _ _ _ _ _ _ _ M J) as (C1 & C2 & _). rewrite Z.add_assoc. repeat (split; [lia |]). exact B3.
  - clear Scalar. destruct (struct_members T _) as [ms0 |] eqn:Em; [| discriminate H]. assert (M := laid_struct _ _ _ Em L).
    destruct (members_all a cs Al ms0 0 _ W W' M) as [O F]; [| exact H |].
    { intros i c n t0 off0 off t x I J S. eapply St. eapply sa_member; eassumption. }
    split.
    * rewrite Z.add_0_r in O. exact O.
    * intros off t x S. destruct (scalar_member _ _ _ _ _ _ _ _ Em S) as (i & c & m & t' & base & k & -> & I & J & S'). destruct (F _ _ _ _ _ I J) as [F1 _]. destruct (F1 _ _ _ S') as (B1 & B2 & B3 & B4).
      destruct (member_out _ _ _ _ _ _ _ _ M J) as (C1 & C2 & _). rewrite Z.add_assoc. repeat (split; [lia |]). exact B4.
    * intros off b S. destruct (char_member _ _ _ _ _ _ _ Em S) as (i & c & m & t' & base & k & -> & I & J & S'). destruct (F _ _ _ _ _ I J) as [_ F1]. destruct (F1 _ _ S') as (B1 & B2 & B3).
      destruct (member_out _ _ _ _ _ _ _ _ M J) as (C1 & C2 & _). rewrite Z.add_assoc. repeat (split; [lia |]). exact B3.
  - destruct cs as [| e [| ? ?]]; try discriminate H. apply bind_ok in H as ([] & Al' & _). apply check_ok in Al'. destruct (srt_dtype e); cbn in Al'; discriminate Al'.
  - destruct cs as [| e [| ? ?]]; try discriminate H. apply bind_ok in H as ([] & Al' & _). apply check_ok in Al'. destruct (srt_dtype e); cbn in Al'; discriminate Al'.
Qed.
End Init.
