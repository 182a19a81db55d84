(** Registers that share a machine register have ranges apart *)
From Verif Require Import Base MapModel SetModel ImmcModel RegallocModel ElabProofs RegSpec RegProofs.
Open Scope Z_scope.

Lemma set_Z_nth {A} (l : list A) i x j : 0 <= i -> (Z.to_nat i < length l)%nat -> nth_error (set_Z l i x) j = if Nat.eqb j (Z.to_nat i) then Some x else nth_error l j.
Proof.
  intros I L. unfold set_Z. replace (i <? 0) with false by lia.
  assert (exists l', list_set l (Z.to_nat i) x = Some l') as (l' & E). { destruct (nth_error l (Z.to_nat i)) eqn:N; [| apply nth_error_None in N; lia]. eapply list_set_total; exact N. }
  rewrite E. destruct (Nat.eqb_spec j (Z.to_nat i)) as [-> | N]; [exact (list_set_nth _ _ _ _ E) | exact (list_set_other _ _ _ _ _ E N)].
Qed.
Lemma set_Z_length {A} (l : list A) i x : length (set_Z l i x) = length l.
Proof. unfold set_Z. destruct (i <? 0); [reflexivity |]. destruct (list_set l (Z.to_nat i) x) eqn:E; [exact (list_set_length _ _ _ _ E) | reflexivity]. Qed.

Lemma free_ok lvs f : forall ss ss', free_unused lvs f ss = Ok ss' -> length ss' = length ss /\
  forall k s', nth_error ss' k = Some s' -> exists s, nth_error ss k = Some s /\ (s' = s \/ (s' = -1 /\ s <> -1 /\ exists x, 0 <= s /\ range lvs s x /\ last_use x <= f)).
Proof.
  induction ss as [| s ss IH]; intros ss' H; cbn [free_unused] in H.
  - injection H as <-. split; [reflexivity |]. intros k s' E. destruct k; discriminate E.
  - apply bind_ok in H as (s1 & H1 & H). apply bind_ok in H as (r & Hr & H). injection H as <-. destruct (IH _ Hr) as [L A]. split; [cbn; lia |].
    intros [| k] s' E; [| exact (A _ _ E)]. injection E as <-. exists s. split; [reflexivity |]. unfold free_status in H1. destruct (s =? -1) eqn:N; [left; congruence |].
    apply bind_ok in H1 as (x & Hx & H1). apply at_Z_ok in Hx as [Rs X]. destruct (last_use x <=? f) eqn:F; [right | left; congruence]. split; [congruence |]. split; [lia |]. exists x. split; [exact Rs |]. split; [exact X | lia].
Qed.
Lemma first_free_ok : forall ss i r, first_free ss i = Some r -> i <= r /\ nth_error ss (Z.to_nat (r - i)) = Some (-1).
Proof.
  induction ss as [| s ss IH]; intros i r H; [discriminate H |]. cbn [first_free] in H. destruct (s =? -1) eqn:E.
  - injection H as ->. split; [lia |]. rewrite Z.sub_diag. cbn. f_equal. lia.
  - destruct (IH _ _ H) as [L N]. split; [lia |]. replace (Z.to_nat (r - i)) with (S (Z.to_nat (r - (i + 1)))) by lia. exact N.
Qed.
Lemma first_free_none : forall ss i, first_free ss i = None -> forall k s, nth_error ss k = Some s -> s <> -1.
Proof. induction ss as [| s ss IH]; intros i H k x E; [destruct k; discriminate E |]. cbn [first_free] in H. destruct (s =? -1) eqn:B; [discriminate H |]. destruct k; [injection E as <-; lia | exact (IH _ H _ _ E)]. Qed.
Lemma spill_ok lvs : forall ss i v re ln sv sr, spill_loop lvs ss i v re ln = Ok (sv, sr) -> (sv = v /\ sr = re) \/ (i <= sr /\ nth_error ss (Z.to_nat (sr - i)) = Some sv).
Proof.
  induction ss as [| s ss IH]; intros i v re ln sv sr H; cbn [spill_loop] in H; [left; injection H as <- <-; auto |]. apply bind_ok in H as (x & Hx & H). cbv zeta in H.
  destruct (ln >=? _) in H; destruct (IH _ _ _ _ _ _ H) as [[-> ->] | [L N]].
  - now left.
  - right. split; [lia |]. replace (Z.to_nat (sr - i)) with (S (Z.to_nat (sr - (i + 1)))) by lia. exact N.
  - right. split; [lia |]. rewrite Z.sub_diag. reflexivity.
  - right. split; [lia |]. replace (Z.to_nat (sr - i)) with (S (Z.to_nat (sr - (i + 1)))) by lia. exact N.
Qed.

(** the registers below [v] have been given machine registers *)
Record given (lvs : list liveness) (n v : nat) (ss allocs : list Z) : Prop := {
  gv_ss : length ss = n;
  gv_allocs : length allocs = length lvs;
  gv_held : forall k s, nth_error ss k = Some s -> s <> -1 -> 0 <= s /\ (Z.to_nat s < v)%nat /\ nth_error allocs (Z.to_nat s) = Some (Z.of_nat k);
  gv_range : forall s k, (s < v)%nat -> nth_error allocs s = Some k -> -1 <= k < Z.of_nat n;
  gv_over : forall s k x t y, (s < v)%nat -> nth_error allocs s = Some k -> 0 <= k -> nth_error ss (Z.to_nat k) <> Some (Z.of_nat s) -> nth_error lvs s = Some x -> (v <= t)%nat -> nth_error lvs t = Some y -> last_use x <= first_def y;
  gv_apart : forall s t k x y, (s < t)%nat -> (t < v)%nat -> nth_error allocs s = Some k -> nth_error allocs t = Some k -> 0 <= k -> nth_error lvs s = Some x -> nth_error lvs t = Some y -> last_use x <= first_def y }.
Lemma given_free lvs n v ss allocs f ss1 x cur : ranges lvs cur -> nth_error lvs v = Some x -> f = first_def x -> given lvs n v ss allocs -> free_unused lvs f ss = Ok ss1 -> given lvs n v ss1 allocs.
Proof.
  intros R X -> [A B C D E F] H. destruct (free_ok _ _ _ _ H) as [L G]. split; auto; [congruence | |].
  - intros k s N1 N2. destruct (G _ _ N1) as (s0 & S0 & [-> | (-> & _)]); [now apply C | congruence].
  - intros s k y t z Sv As K N Y T Z0. destruct (nth_error ss (Z.to_nat k)) as [s0 |] eqn:Es.
    + destruct (Z.eq_dec s0 (Z.of_nat s)) as [-> | Ne].
      * (* freed *)
        destruct (nth_error ss1 (Z.to_nat k)) as [s1 |] eqn:E1; [| apply nth_error_None in E1; assert (Z.to_nat k < length ss)%nat by (apply nth_error_Some; congruence); lia].
        destruct (G _ _ E1) as (s2 & S2 & [-> | (-> & _ & x0 & _ & Rg & Lu)]); [congruence |]. assert (s2 = Z.of_nat s) by congruence. subst s2. rewrite Nat2Z.id in Rg. assert (x0 = y) by congruence. subst x0.
        assert (first_def x <= first_def z) by (eapply (r_mono _ _ R v t); eauto). lia.
      * eapply E; eauto. rewrite Es. congruence.
    + eapply E; eauto. rewrite Es. discriminate.
Qed.
Lemma nth_len {A} (l : list A) i x : nth_error l i = Some x -> (i < length l)%nat.
Proof. intros H. apply nth_error_Some. congruence. Qed.
Lemma allocate_one_ok lvs n v ss allocs ss' allocs' cur : ranges lvs cur -> given lvs n v ss allocs -> allocate_one lvs (Z.of_nat v) ss allocs = Ok (ss', allocs') -> given lvs n (S v) ss' allocs'.
Proof.
  intros R G H. unfold allocate_one in H. apply bind_ok in H as (x & Hx & H). apply at_Z_ok in Hx as [_ X]. rewrite Nat2Z.id in X. apply bind_ok in H as (ss1 & Hf & H).
  assert (G1 := given_free _ _ _ _ _ _ _ _ _ R X eq_refl G Hf). clear G Hf ss. destruct G1 as [A B C D E F]. assert (Lv := nth_len _ _ _ X). assert (Nv := Nat2Z.id v).
  (* giving machine register r to v *)
  assert (Give : forall r al, 0 <= r -> (Z.to_nat r < length ss1)%nat -> length al = length lvs -> (forall s k, (s < v)%nat -> nth_error al s = Some k -> 0 <= k -> nth_error allocs s = Some k /\ (k = r -> nth_error ss1 (Z.to_nat r) <> Some (Z.of_nat s))) ->
    (forall s k, (s < v)%nat -> nth_error al s = Some k -> -1 <= k < Z.of_nat n) -> (forall k s, nth_error ss1 k = Some s -> s <> -1 -> k <> Z.to_nat r -> nth_error al (Z.to_nat s) = nth_error allocs (Z.to_nat s)) ->
    given lvs n (S v) (set_Z ss1 r (Z.of_nat v)) (set_Z al (Z.of_nat v) r)).
  { intros r al Rr Lr La Al Ra Keep. assert (Sa : forall j, nth_error (set_Z al (Z.of_nat v) r) j = if Nat.eqb j v then Some r else nth_error al j) by (intros j; rewrite set_Z_nth by lia; now rewrite Nv).
    assert (Sss : forall j, nth_error (set_Z ss1 r (Z.of_nat v)) j = if Nat.eqb j (Z.to_nat r) then Some (Z.of_nat v) else nth_error ss1 j) by (intros j; apply set_Z_nth; assumption).
    split.
    - now rewrite set_Z_length.
    - now rewrite set_Z_length.
    - intros k s N1 N2. rewrite Sss in N1. destruct (Nat.eqb_spec k (Z.to_nat r)) as [-> | Nk].
      + injection N1 as <-. split; [lia |]. split; [lia |]. rewrite Sa, Nv, Nat.eqb_refl. f_equal. lia.
      + destruct (C _ _ N1 N2) as (C1 & C2 & C3). split; [exact C1 |]. split; [lia |]. rewrite Sa. destruct (Nat.eqb_spec (Z.to_nat s) v) as [Ev | _]; [lia |]. now rewrite (Keep _ _ N1 N2 Nk).
    - intros s k Ls As. rewrite Sa in As. destruct (Nat.eqb_spec s v) as [-> | Ns]; [injection As as <-; lia | eapply Ra; [| exact As]; lia].
    - intros s k y t z Ls As K N Y T Z0. rewrite Sa in As. rewrite Sss in N. destruct (Nat.eqb_spec s v) as [-> | Ns].
      + injection As as <-. rewrite Nat.eqb_refl in N. congruence.
      + destruct (Al s k ltac:(lia) As K) as [As' Nr]. destruct (Nat.eqb_spec (Z.to_nat k) (Z.to_nat r)) as [Ek | Nk].
        * assert (k = r) by lia. subst k. eapply (E s r y t z); [lia | exact As' | exact K | now apply Nr | exact Y | lia | exact Z0].
        * eapply (E s k y t z); [lia | exact As' | exact K | exact N | exact Y | lia | exact Z0].
    - intros s t k y z Lt Lt2 As At K Y Z0. rewrite Sa in As, At. destruct (Nat.eqb_spec s v) as [-> | Ns]; [lia |]. destruct (Nat.eqb_spec t v) as [-> | Nt].
      + injection At as <-. destruct (Al s r ltac:(lia) As K) as [As' Nr]. eapply (E s r y v z); [lia | exact As' | exact K | now apply Nr | exact Y | lia | exact Z0].
      + destruct (Al s k ltac:(lia) As K) as [As' _]. destruct (Al t k ltac:(lia) At K) as [At' _]. eapply (F s t k y z); [lia | lia | exact As' | exact At' | exact K | exact Y | exact Z0]. }
  destruct (first_free ss1 0) as [r |] eqn:Ff.
  - injection H as <- <-. destruct (first_free_ok _ _ _ Ff) as [Rr Fr]. rewrite Z.sub_0_r in Fr. apply Give; auto; [eapply nth_len, Fr |]. intros s k Ls As K. split; [exact As |]. intros ->. rewrite Fr. intros Q. injection Q as Q. lia.
  - apply bind_ok in H as ((sv, sr) & Hs & H). destruct (sv =? Z.of_nat v) eqn:Ev.
    + injection H as <- <-. assert (Sa : forall j, nth_error (set_Z allocs (Z.of_nat v) (-1)) j = if Nat.eqb j v then Some (-1) else nth_error allocs j) by (intros j; rewrite set_Z_nth by lia; now rewrite Nv). split.
      * exact A.
      * now rewrite set_Z_length.
      * intros k s N1 N2. destruct (C _ _ N1 N2) as (C1 & C2 & C3). split; [exact C1 |]. split; [lia |]. rewrite Sa. destruct (Nat.eqb_spec (Z.to_nat s) v); [lia | exact C3].
      * intros s k Ls As. rewrite Sa in As. destruct (Nat.eqb_spec s v) as [-> | Ns]; [injection As as <-; lia | eapply D; [| exact As]; lia].
      * intros s k y t z Ls As K N Y T Z0. rewrite Sa in As. destruct (Nat.eqb_spec s v) as [-> | Ns]; [injection As as <-; lia |]. eapply (E s k y t z); [lia | exact As | exact K | exact N | exact Y | lia | exact Z0].
      * intros s t k y z Lt Lt2 As At K Y Z0. rewrite Sa in As, At. destruct (Nat.eqb_spec s v) as [-> | Ns]; [lia |]. destruct (Nat.eqb_spec t v) as [-> | Nt]; [injection At as <-; lia |]. eapply (F s t k y z); [lia | lia | exact As | exact At | exact K | exact Y | exact Z0].
    + injection H as <- <-. destruct (spill_ok _ _ _ _ _ _ _ _ Hs) as [[-> _] | [Rr Fr]]; [lia |]. rewrite Z.sub_0_r in Fr. assert (Nsv := first_free_none _ _ Ff _ _ Fr). destruct (C _ _ Fr Nsv) as (C1 & C2 & C3).
      assert (Lsv := nth_len _ _ _ C3). assert (Sa : forall j, nth_error (set_Z allocs sv (-1)) j = if Nat.eqb j (Z.to_nat sv) then Some (-1) else nth_error allocs j) by (intros j; apply set_Z_nth; assumption).
      apply Give; [exact Rr | eapply nth_len, Fr | now rewrite set_Z_length | | |].
      * intros s k Ls As K. rewrite Sa in As. destruct (Nat.eqb_spec s (Z.to_nat sv)) as [-> | Ns]; [injection As as <-; lia |]. split; [exact As |]. intros ->. rewrite Fr. intros Q. injection Q as Q. lia.
      * intros s k Ls As. rewrite Sa in As. destruct (Nat.eqb_spec s (Z.to_nat sv)) as [-> | Ns]; [injection As as <-; lia | eapply D; eauto].
      * intros k s N1 N2 Nk. rewrite Sa. destruct (Nat.eqb_spec (Z.to_nat s) (Z.to_nat sv)) as [Es | Ns]; [| reflexivity]. exfalso. destruct (C _ _ N1 N2) as (D1 & D2 & D3). assert (s = sv) by lia. subst s. rewrite C3 in D3. injection D3 as D3. lia.
Qed.
Lemma allocate_loop_ok lvs n cur : ranges lvs cur -> forall m v ss allocs allocs', given lvs n v ss allocs -> allocate_loop m lvs (Z.of_nat v) ss allocs = Ok allocs' -> exists ss', given lvs n (v + m) ss' allocs'.
Proof.
  intros R. induction m as [| m IH]; intros v ss allocs allocs' G H; cbn [allocate_loop] in H.
  - injection H as <-. rewrite Nat.add_0_r. eauto.
  - apply bind_ok in H as ((ss1, al1) & H1 & H). assert (G1 := allocate_one_ok _ _ _ _ _ _ _ _ R G H1). replace (Z.of_nat v + 1) with (Z.of_nat (S v)) in H by lia. replace (v + S m)%nat with (S v + m)%nat by lia. exact (IH _ _ _ _ G1 H).
Qed.
Theorem allocation_ok lvs n allocs cur : ranges lvs cur -> determine_allocation lvs n = Ok allocs ->
  length allocs = length lvs /\ (forall s k, nth_error allocs s = Some k -> -1 <= k < Z.of_nat n) /\
  (forall s t k x y, (s < t)%nat -> nth_error allocs s = Some k -> nth_error allocs t = Some k -> 0 <= k -> nth_error lvs s = Some x -> nth_error lvs t = Some y -> last_use x <= first_def y).
Proof.
  intros R H. unfold determine_allocation in H. change 0 with (Z.of_nat 0) in H. apply (allocate_loop_ok _ n _ R) in H as (ss' & G).
  - cbn [Nat.add] in G. destruct G as [A B C D E F]. split; [exact B |]. split; [intros s k K; apply (D s k); [rewrite <- B; eapply nth_len, K | exact K] |].
    intros s t k x y L S1 T1 K X Y. eapply F; eauto. eapply nth_len, Y.
  - split; [apply repeat_length | apply repeat_length | | intros s k L; lia | intros s k x t y L; lia | intros s t k x y _ L; lia].
    intros k s N1 N2. assert (s = -1) by (eapply repeat_spec, nth_error_In, N1). congruence.
Qed.
Lemma liveseqs_ok : forall lvs seqs allocs seqs', update_liveseqs seqs lvs allocs = Ok seqs' -> length seqs' = length seqs /\ forall s k, (s < length lvs)%nat -> nth_error allocs s = Some k -> 0 <= k.
Proof.
  induction lvs as [| l lvs IH]; intros seqs allocs seqs' H; cbn [update_liveseqs] in H.
  - injection H as <-. split; [reflexivity |]. intros s k L. cbn in L. lia.
  - destruct allocs as [| a allocs]; [discriminate H |]. apply bind_ok in H as (s & Hs & H). apply at_Z_ok in Hs as [Ra _]. destruct (IH _ _ _ H) as [L A]. rewrite set_Z_length in L. split; [exact L |]. intros [| j] k Lj E; [injection E as <-; exact Ra |]. eapply A; [| exact E]. cbn in Lj. lia.
Qed.
