(** Proofs for C44: the liveness marks follow the ranges *)
From Verif Require Import Base ImmcModel RegallocModel X64Model X64genModel ElabProofs RegSpec RegProofs RegProofs4.
Local Open Scope Z_scope.

(** * The ranges of one machine register *)
Record tidy (L : list liveness) : Prop := {
  td_le : forall j x, nth_error L j = Some x -> 0 < first_def x <= last_use x;
  td_apart : forall j k x y, (j < k)%nat -> nth_error L j = Some x -> nth_error L k = Some y -> last_use x <= first_def y;
  td_paced : forall j k x y x' y', (j < k)%nat -> nth_error L j = Some x -> nth_error L (S j) = Some y -> first_def x = first_def y ->
    nth_error L k = Some x' -> nth_error L (S k) = Some y' -> first_def x' = first_def y' -> exists q, first_def x < q < first_def x' /\ forall z, In z L -> first_def z <> q }.
Lemma td_mono L j k x y : tidy L -> (j <= k)%nat -> nth_error L j = Some x -> nth_error L k = Some y -> first_def x <= first_def y.
Proof.
  intros T B X Y. destruct (Nat.eq_dec j k) as [-> | N]; [assert (x = y) by congruence; subst; lia |]. pose proof (td_le _ T _ _ X). pose proof (td_apart _ T j k x y ltac:(lia) X Y). lia.
Qed.
(** two ranges began together, and others at every position since *)
Definition behind (L : list liveness) (i : Z) (p : nat) : Prop :=
  exists j x y, (j <= p)%nat /\ nth_error L j = Some x /\ nth_error L (S j) = Some y /\ first_def x = first_def y /\ forall q, first_def x < q <= i -> exists z, In z L /\ first_def z = q.
Inductive cursor (L : list liveness) (i : Z) : Z -> Prop :=
| cursor_before : (forall x, nth_error L 0 = Some x -> i < first_def x) -> cursor L i (-1)
| cursor_at p x : nth_error L p = Some x -> first_def x <= i -> (forall y, nth_error L (S p) = Some y -> i < first_def y \/ (i = first_def y /\ behind L i p)) -> cursor L i (Z.of_nat p)
| cursor_past : L <> [] -> (forall x, In x L -> last_use x <= i) -> cursor L i (Z.of_nat (length L)).
Lemma at_nat {A} (l : list A) p x : nth_error l p = Some x -> at_Z l (Z.of_nat p) = Ok x.
Proof. intros E. unfold at_Z. replace (Z.of_nat p <? 0) with false by lia. rewrite Nat2Z.id, E. reflexivity. Qed.
Lemma nth_lt {A} (l : list A) p x : nth_error l p = Some x -> (p < length l)%nat.
Proof. intros E. apply nth_error_Some. congruence. Qed.
Lemma next_cursor L i pos : tidy L -> cursor L i pos -> exists pos', liveseq_goto_next (mkls L i pos) = Ok (mkls L (i + 1) pos') /\ cursor L (i + 1) pos'.
Proof.
  intros T C. unfold liveseq_goto_next. cbn [ls_index ls_lvs ls_pos]. cbv zeta. destruct C as [B | p x X D Nx | N P].
  - destruct L as [| x L]; [exists (-1); split; [reflexivity | constructor; intros x E; discriminate E] |]. replace ((Z.of_nat (length (x :: L)) =? 0) || (-1 >=? Z.of_nat (length (x :: L)))) with false by (cbn [length]; lia).
    specialize (B x eq_refl). cbn. destruct (i + 1 >=? first_def x) eqn:E; (eexists; split; [reflexivity |]); [| constructor; intros y Y; injection Y as <-; lia].
    apply (cursor_at _ _ 0%nat x); [reflexivity | lia |]. intros y Y. pose proof (td_mono _ 0 1 x y T ltac:(lia) eq_refl Y). destruct (Z.eq_dec (i + 1) (first_def y)) as [Q | Q]; [right | left; lia]. split; [exact Q |].
    exists 0%nat, x, y. split; [lia |]. split; [reflexivity |]. split; [exact Y |]. split; [lia | intros q Hq; lia].
  - pose proof (nth_lt _ _ _ X) as Lp. replace ((Z.of_nat (length L) =? 0) || (Z.of_nat p >=? Z.of_nat (length L))) with false by lia. replace (Z.of_nat p <? 0) with false by lia. rewrite (at_nat _ _ _ X). cbn [bind].
    destruct (Z.of_nat p =? Z.of_nat (length L) - 1) eqn:Last.
    + destruct (i + 1 >=? last_use x) eqn:E; (eexists; split; [reflexivity |]).
      * apply cursor_past; [intros ->; destruct p; discriminate X |]. intros y Y. apply In_nth_error in Y as (k & Y). pose proof (nth_lt _ _ _ Y). destruct (Nat.eq_dec k p) as [-> | Q]; [assert (y = x) by congruence; subst y; lia |].
        pose proof (td_apart _ T k p y x ltac:(lia) Y X). pose proof (td_le _ T _ _ X). lia.
      * eapply cursor_at; [exact X | lia |]. intros y Y. apply nth_lt in Y. lia.
    + destruct (nth_error L (S p)) as [y |] eqn:Y; [| apply nth_error_None in Y; lia]. replace (Z.of_nat p + 1) with (Z.of_nat (S p)) by lia. rewrite (at_nat _ _ _ Y). cbn [bind]. specialize (Nx y eq_refl).
      destruct (i + 1 >=? first_def y) eqn:E; (eexists; split; [reflexivity |]); [| eapply cursor_at; [exact X | lia |]; rewrite Y; intros z Z; injection Z as <-; left; lia].
      eapply cursor_at; [exact Y | lia |]. intros z Z. pose proof (td_mono _ (S p) (S (S p)) y z T ltac:(lia) Y Z) as M. destruct Nx as [Lt | [Q (j & xj & yj & Bj & Xj & Yj & Dj & All)]].
      * destruct (Z.eq_dec (i + 1) (first_def z)) as [Q | Q]; [right | left; lia]. split; [exact Q |]. exists (S p), y, z. split; [lia |]. split; [exact Y |]. split; [exact Z |]. split; [lia | intros q Hq; lia].
      * assert (first_def y < first_def z).
        { destruct (Z.eq_dec (first_def y) (first_def z)) as [Q' | Q']; [| lia]. exfalso. destruct (td_paced _ T j (S p) xj yj y z ltac:(lia) Xj Yj Dj Y Z Q') as (q & Bq & Nq). destruct (All q ltac:(lia)) as (u & U & Eq). exact (Nq _ U Eq). }
        destruct (Z.eq_dec (i + 1) (first_def z)) as [Q' | Q']; [right | left; lia]. split; [exact Q' |]. exists j, xj, yj. split; [lia |]. split; [exact Xj |]. split; [exact Yj |]. split; [exact Dj |].
        intros q Hq. destruct (Z.eq_dec q (i + 1)) as [-> | Nq]; [exists z; split; [eapply nth_error_In, Z | lia] | apply All; lia].
  - replace ((Z.of_nat (length L) =? 0) || (Z.of_nat (length L) >=? Z.of_nat (length L))) with true by lia. eexists. split; [reflexivity |]. apply cursor_past; [exact N |]. intros x X. specialize (P x X). lia.
Qed.
Lemma cursor_alive L i pos x : tidy L -> cursor L i pos -> In x L -> first_def x < i < last_use x -> liveseq_isalive (mkls L i pos) = Ok true.
Proof.
  intros T C I B. apply In_nth_error in I as (k & X). unfold liveseq_isalive. cbn [ls_index ls_lvs ls_pos]. cbv zeta. destruct C as [Bf | p y Y D Nx | N P].
  - exfalso. destruct L as [| y L]; [destruct k; discriminate X |]. specialize (Bf y eq_refl). pose proof (td_mono _ 0 k y x T ltac:(lia) eq_refl X). lia.
  - assert (k = p).
    { destruct (Nat.lt_trichotomy k p) as [Q | [Q | Q]]; [| exact Q |].
      - pose proof (td_apart _ T _ _ _ _ Q X Y). lia.
      - destruct (nth_error L (S p)) as [z |] eqn:Z; [| apply nth_error_None in Z; apply nth_lt in X; lia]. specialize (Nx z eq_refl). pose proof (td_mono _ (S p) k z x T ltac:(lia) Z X). lia. }
    subst k. assert (y = x) by congruence. subst y. pose proof (nth_lt _ _ _ X). replace ((Z.of_nat (length L) =? 0) || (Z.of_nat p >=? Z.of_nat (length L))) with false by lia. replace (Z.of_nat p <? 0) with false by lia. rewrite (at_nat _ _ _ X). cbn. f_equal. lia.
  - exfalso. specialize (P x (nth_error_In _ _ X)). lia.
Qed.
(** * All the machine registers, after [i] instructions *)
Definition steady (lives : list liveseq) : Prop := forall k s, nth_error lives k = Some s -> tidy (ls_lvs s).
Definition positioned (lives : list liveseq) (i : Z) (now : list liveseq) : Prop :=
  length now = length lives /\ forall k s, nth_error lives k = Some s -> exists pos, nth_error now k = Some (mkls (ls_lvs s) i pos) /\ cursor (ls_lvs s) i pos.
Lemma positioned_next lives i : forall now now', steady lives -> positioned lives i now -> liveseqs_next now = Ok now' -> positioned lives (i + 1) now'.
Proof.
  induction lives as [| s lives IH]; intros now now' S [Ln P] H.
  - destruct now; [| discriminate Ln]. injection H as <-. split; [reflexivity |]. intros k s E. destruct k; discriminate E.
  - destruct now as [| q now]; [discriminate Ln |]. cbn [liveseqs_next] in H. apply bind_ok in H as (q' & Hq & H). apply bind_ok in H as (r & Hr & H). injection H as <-.
    destruct (P 0%nat s eq_refl) as (pos & Eq & C). injection Eq as ->. destruct (next_cursor _ _ _ (S 0%nat s eq_refl) C) as (pos' & E' & C'). rewrite Hq in E'. injection E' as ->.
    destruct (IH now r) as [Lr Pr]; [intros k t E; exact (S (Datatypes.S k) t E) | split; [now injection Ln | intros k t E; exact (P (Datatypes.S k) t E)] | exact Hr |].
    split; [cbn; lia |]. intros [| k] t E; [injection E as <-; exists pos'; auto | exact (Pr _ _ E)].
Qed.
Lemma positioned_alive lives i now k s x : steady lives -> positioned lives i now -> nth_error lives k = Some s -> In x (ls_lvs s) -> first_def x < i < last_use x ->
  exists q, nth_error now k = Some q /\ liveseq_isalive q = Ok true.
Proof. intros S [_ P] E I B. destruct (P _ _ E) as (pos & Eq & C). exists (mkls (ls_lvs s) i pos). split; [exact Eq | exact (cursor_alive _ _ _ _ (S _ _ E) C I B)]. Qed.
Lemma positioned_start lives : steady lives -> (forall k s, nth_error lives k = Some s -> ls_index s = 0 /\ ls_pos s = -1) -> positioned lives 0 lives.
Proof.
  intros S N. split; [reflexivity |]. intros k s E. destruct (N _ _ E) as [A B]. exists (-1). split; [rewrite E; destruct s; cbn in *; congruence |]. apply cursor_before. intros x X. pose proof (td_le _ (S _ _ E) _ _ X). lia.
Qed.
