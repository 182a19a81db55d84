(** Proofs for C44: the ranges given to the machine registers over a whole program *)
From Verif Require Import Base ImmcModel ImmcSem LabelSpec RegallocModel X64Model X64genModel ElabProofs RegSpec RegProofs RegProofs2 RegProofs4 RegProofs6 OrderProofs PaceProofs OrderProofs8 MarkProofs.
Local Open Scope Z_scope.

(** * The ranges of one function on machine register [k] *)
Fixpoint given_to (k : nat) (lvs : list liveness) (allocs : list Z) : list liveness :=
  match lvs, allocs with
  | l :: lvs, a :: allocs => (if a =? Z.of_nat k then [l] else []) ++ given_to k lvs allocs
  | _, _ => []
  end.
Lemma update_ok : forall lvs seqs allocs seqs', update_liveseqs seqs lvs allocs = Ok seqs' -> length seqs' = length seqs
  /\ (forall v x a, nth_error lvs v = Some x -> nth_error allocs v = Some a -> 0 <= a < Z.of_nat (length seqs))
  /\ forall k s, nth_error seqs k = Some s -> nth_error seqs' k = Some (mkls (ls_lvs s ++ given_to k lvs allocs) (ls_index s) (ls_pos s)).
Proof.
  induction lvs as [| l lvs IH]; intros seqs allocs seqs' H; cbn [update_liveseqs] in H.
  - injection H as <-. split; [reflexivity |]. split; [intros v x a E; destruct v; discriminate E |]. intros k s E. cbn. rewrite app_nil_r, E. now destruct s.
  - destruct allocs as [| a allocs]; [discriminate H |]. apply bind_ok in H as (s0 & Hs & H). apply at_Z_ok in Hs as [A0 Es]. pose proof (nth_lt _ _ _ Es) as Al. destruct (IH _ _ _ H) as (L & B & K). rewrite set_Z_length in L, B. split; [exact L |]. split.
    + intros [| v] x b X Y; [injection Y as <-; lia | exact (B _ _ _ X Y)].
    + intros k s E. cbn [given_to]. specialize (K k). rewrite set_Z_nth in K by (auto; lia). destruct (Nat.eqb_spec k (Z.to_nat a)) as [Q | N].
      * subst k. specialize (K _ eq_refl). cbn [ls_lvs ls_index ls_pos] in K. assert (s0 = s) by congruence. subst s0. replace (a =? Z.of_nat (Z.to_nat a)) with true by lia. rewrite K, <- app_assoc. reflexivity.
      * replace (a =? Z.of_nat k) with false by lia. exact (K _ E).
Qed.
Lemma given_slots k : forall lvs allocs, exists vs : list nat, length vs = length (given_to k lvs allocs)
  /\ (forall j v x, nth_error vs j = Some v -> nth_error (given_to k lvs allocs) j = Some x -> nth_error lvs v = Some x /\ nth_error allocs v = Some (Z.of_nat k))
  /\ forall j j' v v', (j < j')%nat -> nth_error vs j = Some v -> nth_error vs j' = Some v' -> (v < v')%nat.
Proof.
  induction lvs as [| l lvs IH]; intros allocs; [exists []; split; [reflexivity |]; split; intros j; intros; destruct j; discriminate |].
  destruct allocs as [| a allocs]; [exists []; split; [reflexivity |]; split; intros j; intros; destruct j; discriminate |]. destruct (IH allocs) as (vs & L & N & M). cbn [given_to].
  assert (Sh : forall j v, nth_error (map S vs) j = Some v -> exists v0, v = S v0 /\ nth_error vs j = Some v0).
  { intros j v E. rewrite nth_error_map in E. destruct (nth_error vs j) as [v0 |]; [injection E as <-; eauto | discriminate E]. }
  destruct (a =? Z.of_nat k) eqn:Q; cbn [app].
  - exists (0%nat :: map S vs). split; [cbn; now rewrite map_length, L |]. split.
    + intros [| j] v x E X; [injection E as <-; injection X as <-; split; [reflexivity | cbn; f_equal; lia] |]. destruct (Sh _ _ E) as (v0 & -> & E0). exact (N _ _ _ E0 X).
    + intros j j' v v' B E E'. destruct j' as [| j']; [lia |]. destruct (Sh _ _ E') as (v0' & -> & E0'). destruct j as [| j]; [injection E as <-; lia |]. destruct (Sh _ _ E) as (v0 & -> & E0). specialize (M j j' v0 v0' ltac:(lia) E0 E0'). lia.
  - exists (map S vs). split; [now rewrite map_length |]. split.
    + intros j v x E X. destruct (Sh _ _ E) as (v0 & -> & E0). exact (N _ _ _ E0 X).
    + intros j j' v v' B E E'. destruct (Sh _ _ E) as (v0 & -> & E0). destruct (Sh _ _ E') as (v0' & -> & E0'). specialize (M j j' v0 v0' B E0 E0'). lia.
Qed.
Lemma given_in k : forall lvs allocs v x, nth_error lvs v = Some x -> nth_error allocs v = Some (Z.of_nat k) -> In x (given_to k lvs allocs).
Proof.
  induction lvs as [| l lvs IH]; intros allocs v x X A; [destruct v; discriminate X |]. destruct allocs as [| a allocs]; [destruct v; discriminate A |]. cbn [given_to]. apply in_app_iff.
  destruct v as [| v]; [injection X as ->; injection A as ->; rewrite Z.eqb_refl; left; now left | right; exact (IH _ _ _ X A)].
Qed.

Definition bounded (L : list liveness) (off : Z) : Prop := forall x, In x L -> last_use x <= off /\ first_def x < off.
Section Function.
Variables (fn : list immc) (l : list liveness) (off : Z) (n : nat) (allocs : list Z).
Hypothesis Off : 0 <= off.
Hypothesis Cov : covers fn l off.
Hypothesis Pace : paced fn.
Hypothesis Alloc : determine_allocation l n = Ok allocs.
Hypothesis Head : exists t v m body, fn = IMMC_LABEL t v m :: body.
Lemma begins v x : nth_error l v = Some x -> off < first_def x <= last_use x /\ last_use x <= off + Z.of_nat (length fn) /\ first_def x < off + Z.of_nat (length fn).
Proof.
  intros X. destruct Cov as (_ & _ & R & Bo). pose proof (r_le _ _ R _ _ X). destruct (Bo _ _ X) as (k & c & w & E & W & B & D). pose proof (nth_lt _ _ _ E).
  destruct k as [| k]; [destruct Head as (t & vi & m & body & ->); injection E as <-; discriminate W | lia].
Qed.
Lemma together v1 v2 x y k : (v1 < v2)%nat -> nth_error l v1 = Some x -> nth_error l v2 = Some y -> nth_error allocs v1 = Some k -> nth_error allocs v2 = Some k -> 0 <= k -> first_def x = first_def y ->
  exists p, first_def x = off + Z.of_nat p /\ idle fn p (Z.of_nat v1).
Proof.
  intros Lt X Y A1 A2 K D. destruct Cov as (_ & M & R & Bo). destruct (allocation_ok _ _ _ _ R Alloc) as (_ & _ & Ap). pose proof (Ap _ _ _ _ _ Lt A1 A2 K X Y) as U.
  destruct (Bo _ _ Y) as (p & c & w & E & W & B & Dy). exists p. split; [lia |]. split.
  - exists c, w. split; [exact E |]. split; [exact W |]. split; [lia |]. intros q c' t Lq Eq Wq. destruct (Z_lt_le_dec t (Z.of_nat v1)) as [Q | Q]; [exact Q |]. exfalso.
    destruct (proj2 (M _ _ Eq) _ Wq ltac:(lia)) as (z & Zt & Zd). pose proof (r_mono _ _ R v1 (Z.to_nat t) x z ltac:(lia) X Zt). lia.
  - intros q c' Lq Eq I. destruct (proj1 (M _ _ Eq) _ I) as (_ & z & Zr & Zu). rewrite Nat2Z.id in Zr. assert (z = x) by congruence. subst z. lia.
Qed.
Lemma extend_tidy L k : tidy L -> bounded L off -> tidy (L ++ given_to k l allocs) /\ bounded (L ++ given_to k l allocs) (off + Z.of_nat (length fn)).
Proof.
  intros T B. destruct Cov as (_ & _ & R & Bo). destruct (allocation_ok _ _ _ _ R Alloc) as (_ & _ & Ap). destruct (given_slots k l allocs) as (vs & Lv & Nv & Mv). set (G := given_to k l allocs) in *.
  assert (Old : forall j x, (j < length L)%nat -> nth_error (L ++ G) j = Some x -> nth_error L j = Some x) by (intros j x Lj E; now rewrite nth_error_app1 in E by exact Lj).
  assert (New : forall j x, (length L <= j)%nat -> nth_error (L ++ G) j = Some x -> exists v, nth_error vs (j - length L) = Some v /\ nth_error l v = Some x /\ nth_error allocs v = Some (Z.of_nat k)).
  { intros j x Lj E. rewrite nth_error_app2 in E by exact Lj. destruct (nth_error vs (j - length L)) as [v |] eqn:V; [exists v; split; [reflexivity | exact (Nv _ _ _ V E)] |]. apply nth_error_None in V. apply nth_lt in E. lia. }
  assert (NewB : forall j x, (length L <= j)%nat -> nth_error (L ++ G) j = Some x -> off < first_def x <= last_use x /\ last_use x <= off + Z.of_nat (length fn) /\ first_def x < off + Z.of_nat (length fn)).
  { intros j x Lj E. destruct (New _ _ Lj E) as (v & _ & X & _). exact (begins _ _ X). }
  assert (OldB : forall j x, (j < length L)%nat -> nth_error (L ++ G) j = Some x -> 0 < first_def x <= last_use x /\ last_use x <= off /\ first_def x < off).
  { intros j x Lj E. apply (Old _ _ Lj) in E. pose proof (td_le _ T _ _ E). pose proof (B x (nth_error_In _ _ E)). lia. }
  assert (Any : forall z, In z (L ++ G) -> first_def z < off \/ exists v, nth_error l v = Some z).
  { intros z I. apply In_nth_error in I as (j & E). destruct (Nat.lt_ge_cases j (length L)) as [Lj | Lj]; [left; apply (OldB _ _ Lj E) | right; destruct (New _ _ Lj E) as (v & _ & X & _); eauto]. }
  split; [split |].
  - intros j x E. destruct (Nat.lt_ge_cases j (length L)) as [Lj | Lj]; [pose proof (OldB _ _ Lj E) | pose proof (NewB _ _ Lj E)]; lia.
  - intros j j' x y Lt X Y. destruct (Nat.lt_ge_cases j' (length L)) as [Lk | Lk]; [eapply (td_apart _ T j j'); [exact Lt | apply Old; [lia | exact X] | apply Old; [lia | exact Y]] |].
    pose proof (NewB _ _ Lk Y). destruct (Nat.lt_ge_cases j (length L)) as [Lj | Lj]; [pose proof (OldB _ _ Lj X); lia |].
    destruct (New _ _ Lj X) as (v & V & Xv & Av). destruct (New _ _ Lk Y) as (v' & V' & Yv & Av'). refine (Ap v v' (Z.of_nat k) x y _ Av Av' _ Xv Yv); [| lia]. apply (Mv (j - length L)%nat (j' - length L)%nat); [lia | exact V | exact V'].
  - intros j j' x y x' y' Lt X Y D X' Y' D'. destruct (Nat.lt_ge_cases (S j') (length L)) as [A | A].
    { destruct (td_paced _ T j j' x y x' y' Lt) as (q & Bq & Nq); try (apply Old; [lia | assumption]); try assumption. exists q. split; [exact Bq |]. pose proof (OldB j' x' ltac:(lia) X'). intros z I. destruct (Any z I) as [_ | (v & Zv)]; [| pose proof (begins _ _ Zv); lia].
      apply in_app_iff in I as [I | I]; [exact (Nq _ I) |]. apply In_nth_error in I as (jj & E). assert (E' : nth_error (L ++ G) (length L + jj) = Some z) by (rewrite nth_error_app2 by lia; replace (length L + jj - length L)%nat with jj by lia; exact E). pose proof (NewB _ _ (Nat.le_add_r _ _) E'). lia. }
    destruct (Nat.lt_ge_cases j' (length L)) as [A' | A']; [pose proof (OldB _ _ A' X'); pose proof (NewB _ _ A Y'); lia |].
    destruct (Nat.lt_ge_cases j (length L)) as [A1 | A1].
    + destruct (Nat.lt_ge_cases (S j) (length L)) as [A2 | A2]; [| pose proof (OldB _ _ A1 X); pose proof (NewB _ _ A2 Y); lia].
      exists off. pose proof (OldB _ _ A1 X). pose proof (NewB _ _ A' X'). split; [lia |]. intros z I. destruct (Any z I) as [Q | (v & Zv)]; [lia | pose proof (begins _ _ Zv); lia].
    + destruct (New _ _ A1 X) as (v1 & V1 & X1 & K1). destruct (New _ _ (le_S _ _ A1) Y) as (v2 & V2 & X2 & K2). destruct (New _ _ A' X') as (v3 & V3 & X3 & K3). destruct (New _ _ A Y') as (v4 & V4 & X4 & K4).
      assert (v1 < v2)%nat by (apply (Mv (j - length L)%nat (S j - length L)%nat); [lia | exact V1 | exact V2]). assert (v3 < v4)%nat by (apply (Mv (j' - length L)%nat (S j' - length L)%nat); [lia | exact V3 | exact V4]).
      assert (v1 < v3)%nat by (apply (Mv (j - length L)%nat (j' - length L)%nat); [lia | exact V1 | exact V3]).
      destruct (together v1 v2 x y (Z.of_nat k)) as (p & Dp & Ip); auto; [lia |]. destruct (together v3 v4 x' y' (Z.of_nat k)) as (p' & Dp' & Ip'); auto; [lia |].
      pose proof (r_mono _ _ R v1 v3 x x' ltac:(lia) X1 X3). destruct Pace as [P1 P2]. destruct (Nat.eq_dec p p') as [Q | Q]; [subst p'; specialize (P1 p _ _ (Nat2Z.is_nonneg _) (Nat2Z.is_nonneg _) Ip Ip'); lia |].
      destruct (P2 p p' _ _ (Nat2Z.is_nonneg _) (Nat2Z.is_nonneg _) ltac:(lia) Ip Ip') as (q & c & Bq & Eq & Wq). exists (off + Z.of_nat q). split; [lia |]. intros z I. destruct (Any z I) as [Qz | (v & Zv)]; [lia |].
      destruct (Bo _ _ Zv) as (kk & c' & w & E' & W' & _ & Dz). intros Qz. assert (kk = q) by lia. subst kk. congruence.
  - intros x I. apply In_nth_error in I as (j & E). destruct (Nat.lt_ge_cases j (length L)) as [Lj | Lj]; [pose proof (OldB _ _ Lj E) | pose proof (NewB _ _ Lj E)]; lia.
Qed.
End Function.
