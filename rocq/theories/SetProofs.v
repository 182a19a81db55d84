(** Sets: membership and the set operations on every reachable set. *)
From Verif Require Import Base MapModel SetModel MapSpec MapProofs.
From Coq Require Import Permutation.

Section Proofs.
  Context {K : Type}.
  Variable keq : K -> K -> bool.
  Variable hash : K -> Z.
  Hypothesis keq_spec : forall a b, keq a b = true <-> a = b.
  Hypothesis hash_nonneg : forall k, (0 <= hash k)%Z.

  Notation inv := (@inv K unit hash).

  (** sets a client can build *)
  Inductive reachable : set K -> Prop :=
  | r_new : reachable new_set
  | r_add s x s' : reachable s -> set_add keq hash s x = Ok s' -> reachable s'
  | r_remove s x s' : reachable s -> set_remove keq hash s x = Ok s' -> reachable s'
  | r_inter s t u : reachable s -> reachable t -> set_intersection keq hash s t = Ok u -> reachable u
  | r_union s t u : reachable s -> reachable t -> set_union keq hash s t = Ok u -> reachable u
  | r_diff s t u : reachable s -> reachable t -> set_difference keq hash s t = Ok u -> reachable u.

  (** the items an iterator visits *)
  Definition mem (s : set K) (x : K) : Prop := In x (set_items s).

  Lemma mem_iter s x : mem s x <-> In (x, tt) (iter (cells s)).
  Proof.
    unfold mem, set_items. rewrite in_map_iff. split.
    - intros ((k & []) & E & Hin). cbn in E. subst. exact Hin.
    - intros Hin. exists (x, tt). auto.
  Qed.

  Lemma contains_spec s x : inv s -> exists b, set_contains keq hash s x = Ok b /\ (b = true <-> mem s x).
  Proof.
    intros Hi. unfold set_contains, map_contains.
    destruct (map_get_spec keq hash keq_spec hash_nonneg s x Hi) as (o & -> & Ho). cbn [bind].
    eexists; split; [reflexivity|]. rewrite mem_iter. destruct o as [[]|].
    - tauto.
    - split; [discriminate|]. intros Hin. destruct (Ho _ Hin).
  Qed.

  Lemma add_spec s x : inv s ->
    exists s', set_add keq hash s x = Ok s' /\ inv s' /\ forall y, mem s' y <-> y = x \/ mem s y.
  Proof.
    intros Hi. unfold set_add.
    destruct (map_add_spec keq hash keq_spec hash_nonneg s x tt Hi) as (s' & rest & old & -> & Hi' & Hp & Hp' & Ho & _).
    exists s'. split; [reflexivity|]. split; [exact Hi'|]. intros y. rewrite !mem_iter. split.
    - intros Hin. apply (Permutation_in _ Hp') in Hin. destruct Hin as [E|Hin].
      + injection E as <-. auto.
      + right. apply (Permutation_in _ (Permutation_sym Hp)), in_app_iff. auto.
    - intros Hin. apply (Permutation_in _ (Permutation_sym Hp')). destruct Hin as [->|Hin]; [left; reflexivity|].
      apply (Permutation_in _ Hp), in_app_iff in Hin. destruct Hin as [Hin|]; [|right; assumption].
      destruct Ho as [->|([] & ->)]; [destruct Hin|]. destruct Hin as [E|[]]. left; assumption.
  Qed.

  Lemma remove_spec s x : inv s ->
    exists s', set_remove keq hash s x = Ok s' /\ inv s' /\
      (forall y, y <> x -> (mem s' y <-> mem s y)) /\ (mem s' x -> mem s x).
  Proof.
    intros Hi. unfold set_remove.
    destruct (map_remove_spec keq hash keq_spec hash_nonneg s x Hi) as (s' & -> & Hi' & Hc).
    exists s'. split; [reflexivity|]. split; [exact Hi'|]. destruct Hc as [(-> & Hno)|([] & Hp)].
    - split; [tauto|auto].
    - split.
      + intros y Hne. rewrite !mem_iter. split.
        * intros Hin. apply (Permutation_in _ (Permutation_sym Hp)). right; assumption.
        * intros Hin. apply (Permutation_in _ Hp) in Hin. destruct Hin as [E|]; [congruence|assumption].
      + rewrite !mem_iter. intros Hin. apply (Permutation_in _ (Permutation_sym Hp)). right; assumption.
  Qed.

  Lemma add_all_spec xs : forall acc, inv acc ->
    exists u, add_all keq hash xs acc = Ok u /\ inv u /\ forall y, mem u y <-> In y xs \/ mem acc y.
  Proof.
    induction xs as [|x xs IH]; intros acc Hi; cbn [add_all].
    - exists acc. cbn. split; [reflexivity|]. split; [assumption|]. tauto.
    - destruct (add_spec acc x Hi) as (acc' & -> & Hi' & Hm). cbn [bind].
      destruct (IH acc' Hi') as (u & -> & Hu & Hmu). exists u. split; [reflexivity|]. split; [assumption|].
      intros y. rewrite Hmu, Hm. cbn. intuition.
  Qed.

  Lemma filter_spec want xs other : inv other -> forall acc, inv acc ->
    exists u, filter_loop keq hash want xs other acc = Ok u /\ inv u /\
      forall y, mem u y <-> (In y xs /\ (want = true <-> mem other y)) \/ mem acc y.
  Proof.
    intros Ho. induction xs as [|x xs IH]; intros acc Hi; cbn [filter_loop].
    - exists acc. cbn. split; [reflexivity|]. split; [assumption|]. tauto.
    - destruct (contains_spec other x Ho) as (b & -> & Hb). cbn [bind].
      destruct (Bool.eqb b want) eqn:E.
      + apply Bool.eqb_prop in E. subst b.
        destruct (add_spec acc x Hi) as (acc' & -> & Hi' & Hm). cbn [bind].
        destruct (IH acc' Hi') as (u & -> & Hu & Hmu). exists u. split; [reflexivity|]. split; [assumption|].
        intros y. rewrite Hmu, Hm. cbn. split.
        * intros [(H1 & H2)|[->|H]]; auto.
        * intros [([->|H1] & H2)|H]; auto.
      + destruct (IH acc Hi) as (u & -> & Hu & Hmu). exists u. split; [reflexivity|]. split; [assumption|].
        intros y. rewrite Hmu. cbn. split.
        * intros [(H1 & H2)|H]; auto.
        * intros [([->|H1] & H2)|H]; auto. exfalso. rewrite <- H2 in Hb.
          destruct b, want; cbn in E; try discriminate; destruct Hb as (Hb1 & Hb2); [discriminate Hb1|discriminate Hb2]; reflexivity.
  Qed.

  Lemma new_set_inv : inv new_set.
  Proof. apply new_inv. Qed.

  Lemma inter_spec s t : inv s -> inv t ->
    exists u, set_intersection keq hash s t = Ok u /\ inv u /\ forall y, mem u y <-> mem s y /\ mem t y.
  Proof.
    intros Hs Ht. unfold set_intersection.
    destruct (filter_spec true (set_items s) t Ht new_set new_set_inv) as (u & -> & Hu & Hm).
    exists u. split; [reflexivity|]. split; [assumption|]. intros y. rewrite Hm.
    change (mem new_set y) with False. fold (mem s y). intuition.
  Qed.

  Lemma diff_spec s t : inv s -> inv t ->
    exists u, set_difference keq hash s t = Ok u /\ inv u /\ forall y, mem u y <-> mem s y /\ ~ mem t y.
  Proof.
    intros Hs Ht. unfold set_difference.
    destruct (filter_spec false (set_items s) t Ht new_set new_set_inv) as (u & -> & Hu & Hm).
    exists u. split; [reflexivity|]. split; [assumption|]. intros y. rewrite Hm.
    change (mem new_set y) with False. fold (mem s y). split.
    - intros [(H1 & H2)|[]]. split; [assumption|]. intros H. apply H2 in H. discriminate.
    - intros (H1 & H2). left. split; [assumption|]. split; [discriminate|]. intros H; contradiction.
  Qed.

  Lemma union_spec s t : inv s -> inv t ->
    exists u, set_union keq hash s t = Ok u /\ inv u /\ forall y, mem u y <-> mem s y \/ mem t y.
  Proof.
    intros Hs Ht. unfold set_union.
    destruct (add_all_spec (set_items s) new_set new_set_inv) as (u & -> & Hu & Hm). cbn [bind].
    destruct (add_all_spec (set_items t) u Hu) as (w & -> & Hw & Hmw).
    exists w. split; [reflexivity|]. split; [assumption|]. intros y. rewrite Hmw, Hm.
    change (mem new_set y) with False. fold (mem s y) (mem t y). tauto.
  Qed.

  Lemma subset_loop_spec xs s : inv s ->
    exists b, subset_loop keq hash xs s = Ok b /\ (b = true <-> forall x, In x xs -> mem s x).
  Proof.
    intros Hs. induction xs as [|x xs IH]; cbn [subset_loop].
    - eexists; split; [reflexivity|]. cbn. tauto.
    - destruct (contains_spec s x Hs) as (b & -> & Hb). cbn [bind]. destruct b.
      + destruct IH as (b & -> & Hb'). exists b. split; [reflexivity|]. rewrite Hb'. cbn. split.
        * intros H y [<-|H']; [tauto|auto].
        * auto.
      + eexists; split; [reflexivity|]. split; [discriminate|]. intros H. apply Hb. apply H. left; reflexivity.
  Qed.

  Lemma issubset_spec s t : inv s -> inv t ->
    exists b, set_issubset keq hash s t = Ok b /\ (b = true <-> forall x, mem t x -> mem s x).
  Proof. intros Hs _. apply subset_loop_spec; assumption. Qed.

  Lemma equals_spec s t : inv s -> inv t ->
    exists b, set_equals keq hash s t = Ok b /\ (b = true <-> forall x, mem s x <-> mem t x).
  Proof.
    intros Hs Ht. unfold set_equals.
    destruct (issubset_spec s t Hs Ht) as (b & -> & Hb). cbn [bind]. destruct b.
    - destruct (issubset_spec t s Ht Hs) as (b & -> & Hb'). exists b. split; [reflexivity|].
      rewrite Hb'. split; [|firstorder]. intros H x. destruct Hb as (Hb & _). split; auto.
    - eexists; split; [reflexivity|]. split; [discriminate|]. intros H. apply Hb. intros x. apply H.
  Qed.

  Lemma reachable_inv s : reachable s -> inv s.
  Proof.
    induction 1 as [|s x s' _ IH H|s x s' _ IH H|s t u _ IH1 _ IH2 H|s t u _ IH1 _ IH2 H|s t u _ IH1 _ IH2 H].
    - apply new_set_inv.
    - destruct (add_spec s x IH) as (s1 & E & Hi & _). congruence.
    - destruct (remove_spec s x IH) as (s1 & E & Hi & _). congruence.
    - destruct (inter_spec s t IH1 IH2) as (s1 & E & Hi & _). congruence.
    - destruct (union_spec s t IH1 IH2) as (s1 & E & Hi & _). congruence.
    - destruct (diff_spec s t IH1 IH2) as (s1 & E & Hi & _). congruence.
  Qed.

  (** membership as the client observes it *)
  Definition member (s : set K) (x : K) : bool :=
    match set_contains keq hash s x with Ok b => b | _ => false end.

  Lemma member_spec s x : inv s -> set_contains keq hash s x = Ok (member s x) /\ (member s x = true <-> mem s x).
  Proof.
    intros Hi. unfold member. destruct (contains_spec s x Hi) as (b & -> & Hb). auto.
  Qed.

  Lemma bool_iff (a b : bool) : (a = true <-> b = true) -> a = b.
  Proof. destruct a, b; intuition. Qed.

  Lemma set_ops s t : reachable s -> reachable t ->
    (forall x, set_contains keq hash s x = Ok (member s x) /\ (member s x = true <-> In x (set_items s))) /\
    (exists u, set_union keq hash s t = Ok u /\ forall x, member u x = member s x || member t x) /\
    (exists u, set_intersection keq hash s t = Ok u /\ forall x, member u x = member s x && member t x) /\
    (exists u, set_difference keq hash s t = Ok u /\ forall x, member u x = member s x && negb (member t x)) /\
    (exists b, set_issubset keq hash s t = Ok b /\ (b = true <-> forall x, member t x = true -> member s x = true)) /\
    (exists b, set_equals keq hash s t = Ok b /\ (b = true <-> forall x, member s x = member t x)) /\
    (forall x, exists s', set_add keq hash s x = Ok s' /\ forall y, member s' y = keq x y || member s y) /\
    (forall x, exists s', set_remove keq hash s x = Ok s' /\
       (forall y, y <> x -> member s' y = member s y) /\ (member s' x = true -> member s x = true)).
  Proof.
    intros Hs Ht. apply reachable_inv in Hs, Ht.
    assert (Hms := fun x => proj2 (member_spec s x Hs)). assert (Hmt := fun x => proj2 (member_spec t x Ht)).
    repeat split.
    - apply member_spec; assumption.
    - apply Hms.
    - apply Hms.
    - destruct (union_spec s t Hs Ht) as (u & -> & Hu & Hm). exists u. split; [reflexivity|].
      intros x. apply bool_iff. rewrite (proj2 (member_spec u x Hu)), Hm, <- Hms, <- Hmt, orb_true_iff. tauto.
    - destruct (inter_spec s t Hs Ht) as (u & -> & Hu & Hm). exists u. split; [reflexivity|].
      intros x. apply bool_iff. rewrite (proj2 (member_spec u x Hu)), Hm, <- Hms, <- Hmt, andb_true_iff. tauto.
    - destruct (diff_spec s t Hs Ht) as (u & -> & Hu & Hm). exists u. split; [reflexivity|].
      intros x. apply bool_iff. rewrite (proj2 (member_spec u x Hu)), Hm, <- Hms, <- Hmt, andb_true_iff, negb_true_iff.
      destruct (member t x); intuition discriminate.
    - destruct (issubset_spec s t Hs Ht) as (b & -> & Hb). exists b. split; [reflexivity|]. rewrite Hb.
      split; intros H x; specialize (H x); rewrite <- ?Hms, <- ?Hmt in *; auto.
    - destruct (equals_spec s t Hs Ht) as (b & -> & Hb). exists b. split; [reflexivity|]. rewrite Hb.
      split; intros H x; specialize (H x).
      + apply bool_iff. rewrite Hms, Hmt. exact H.
      + rewrite <- Hms, <- Hmt, H. tauto.
    - intros x. destruct (add_spec s x Hs) as (u & -> & Hu & Hm). exists u. split; [reflexivity|].
      intros y. apply bool_iff. rewrite (proj2 (member_spec u y Hu)), Hm, <- Hms, orb_true_iff, keq_spec. intuition.
    - intros x. destruct (remove_spec s x Hs) as (u & -> & Hu & Hm & Hx). exists u. split; [reflexivity|]. split.
      + intros y Hy. apply bool_iff. rewrite (proj2 (member_spec u y Hu)), (Hm y Hy), Hms. tauto.
      + rewrite (proj2 (member_spec u x Hu)), Hms. exact Hx.
  Qed.
End Proofs.
