(** The sets of integers the back end uses, as instances of the general facts about sets. *)
From Verif Require Import Base MapModel SetModel MapSpec MapProofs MapProofs2 SetProofs RegallocModel X64genModel.
Open Scope Z_scope.

Definition iinv (s : iset) : Prop := @inv Z unit hash_integer s.
Definition imem (s : iset) (x : Z) : Prop := In x (set_items s).

Lemma inew_inv : iinv new_set.
Proof. apply new_set_inv. Qed.
Lemma inew_mem x : ~ imem new_set x.
Proof. intros H. exact H. Qed.
Lemma iadd_spec s x : iinv s -> exists s', iadd s x = Ok s' /\ iinv s' /\ forall y, imem s' y <-> y = x \/ imem s y.
Proof. apply (add_spec Z.eqb hash_integer Z.eqb_eq hash_integer_nonneg). Qed.
Lemma iadd_ok s x s' : iinv s -> iadd s x = Ok s' -> iinv s' /\ forall y, imem s' y <-> y = x \/ imem s y.
Proof. intros Hi H. destruct (iadd_spec s x Hi) as (s1 & E & R). assert (s1 = s') by congruence. subst. exact R. Qed.
Lemma icontains_spec s x : iinv s -> exists b, icontains s x = Ok b /\ (b = true <-> imem s x).
Proof. apply (contains_spec Z.eqb hash_integer Z.eqb_eq hash_integer_nonneg). Qed.
Lemma icontains_ok s x b : iinv s -> icontains s x = Ok b -> (b = true <-> imem s x).
Proof. intros Hi H. destruct (icontains_spec s x Hi) as (c & E & R). assert (c = b) by congruence. subst. exact R. Qed.
Lemma iremove_spec s x : iinv s ->
  exists s', iremove s x = Ok s' /\ iinv s' /\ (forall y, y <> x -> (imem s' y <-> imem s y)) /\ (imem s' x -> imem s x).
Proof. apply (remove_spec Z.eqb hash_integer Z.eqb_eq hash_integer_nonneg). Qed.
Lemma iremove_ok s x s' : iinv s -> iremove s x = Ok s' ->
  iinv s' /\ (forall y, y <> x -> (imem s' y <-> imem s y)) /\ (imem s' x -> imem s x).
Proof. intros Hi H. destruct (iremove_spec s x Hi) as (s1 & E & R). assert (s1 = s') by congruence. subst. exact R. Qed.
Lemma iunion_spec s t : iinv s -> iinv t ->
  exists u, iunion s t = Ok u /\ iinv u /\ forall y, imem u y <-> imem s y \/ imem t y.
Proof. apply (union_spec Z.eqb hash_integer Z.eqb_eq hash_integer_nonneg). Qed.
Lemma iunion_ok s t u : iinv s -> iinv t -> iunion s t = Ok u -> iinv u /\ forall y, imem u y <-> imem s y \/ imem t y.
Proof. intros Hs Ht H. destruct (iunion_spec s t Hs Ht) as (s1 & E & R). assert (s1 = u) by congruence. subst. exact R. Qed.
Lemma iequals_spec s t : iinv s -> iinv t ->
  exists b, iequals s t = Ok b /\ (b = true <-> forall x, imem s x <-> imem t x).
Proof. apply (equals_spec Z.eqb hash_integer Z.eqb_eq hash_integer_nonneg). Qed.
Lemma iequals_ok s t b : iinv s -> iinv t -> iequals s t = Ok b -> (b = true <-> forall x, imem s x <-> imem t x).
Proof. intros Hs Ht H. destruct (iequals_spec s t Hs Ht) as (s1 & E & R). assert (s1 = b) by congruence. subst. exact R. Qed.
