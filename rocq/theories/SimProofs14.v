(** Proofs for C48: the machine runs in one way only *)
From Coq Require Import Lia.
From Verif Require Import Base ImmcModel ImmcgenModel RegallocModel FrontModel X64Model X64genModel X64Decode AsmLabelSpec AsmLabelProofs CallSpec SimSpec SimCallSpec X64Isa.
Local Open Scope Z_scope.

Lemma label_in F : forall q t v l, nth_error F q = Some (X64_LABEL t v l) -> In l (x64_labels F).
Proof. intros q t v l E. apply in_flat_map. exists (X64_LABEL t v l). split; [eapply nth_error_In; exact E | now left]. Qed.
Lemma label_once : forall F q q' t v t' v' l, NoDup (x64_labels F) -> nth_error F q = Some (X64_LABEL t v l) -> nth_error F q' = Some (X64_LABEL t' v' l) -> q = q'.
Proof.
  assert (T : forall c F, NoDup (x64_labels (c :: F)) -> NoDup (x64_labels F) /\ forall t v l, c = X64_LABEL t v l -> ~ In l (x64_labels F)).
  { intros c F N. destruct c; cbn in N; try (split; [exact N | intros; discriminate]). apply NoDup_cons_iff in N as (N1 & N2). split; [exact N2 |]. intros t' v' l' E. injection E as _ _ <-. exact N1. }
  induction F as [| c F IH]; intros q q' t v t' v' l N E E'; [destruct q; discriminate E |]. apply T in N as (N & D). destruct q as [| q], q' as [| q']; cbn [nth_error] in E, E'.
  - reflexivity.
  - injection E as ->. destruct (D _ _ _ eq_refl). eapply label_in. exact E'.
  - injection E' as ->. destruct (D _ _ _ eq_refl). eapply label_in. exact E.
  - f_equal. eapply IH; eauto.
Qed.
Lemma function_labels X F : x64_function X F -> NoDup (x64_labels X) -> NoDup (x64_labels F).
Proof.
  intros (B & A & v & n & body & -> & _) N. unfold x64_labels in N. rewrite !flat_map_app in N. clear -N. induction (flat_map x64_label_of B) as [| x l IH]; [| apply IH; now apply NoDup_cons_iff in N].
  cbn [app] in N. fold (x64_labels F) in N |- *. revert N. generalize (flat_map x64_label_of A). clear. intros r. induction (x64_labels F) as [| x l IH]; intros N; [constructor |]. cbn [app] in N. apply NoDup_cons_iff in N as (N1 & N2). constructor; [| now apply IH]. intros I. apply N1. apply in_or_app. now left.
Qed.
Section Unique.
Variables (K : nat -> Z -> state -> state -> Prop) (e : env) (F : list x64).
Hypothesis Nd : NoDup (x64_labels F).
Hypothesis Fn : forall p a m m1 m2, K p a m m1 -> K p a m m2 -> m1 = m2.
Lemma own_step_once a b b' : own_step e F a b -> own_step e F a b' -> b = b'.
Proof.
  intros S1 S2. inversion S1; subst; inversion S2; subst; try congruence.
  match goal with H1 : nth_error F ?q = Some (X64_LABEL ?t ?v ?l), H2 : nth_error F ?q' = Some (X64_LABEL ?t' ?v' ?l') |- (?q, _) = (?q', _) => assert (l = l') by congruence; subst l'; assert (q = q') by (eapply label_once; eauto); congruence end.
Qed.
Lemma step_once a b b' : step_with K e F a b -> step_with K e F a b' -> b = b'.
Proof.
  intros S1 S2. inversion S1 as [? ? O1 | p m t s d i l x m' E1 D1 C1 L1 K1]; subst; inversion S2 as [? ? O2 | p2 m2 t2 s2 d2 i2 l2 x2 m2' E2 D2 C2 L2 K2]; subst.
  - eapply own_step_once; eauto.
  - inversion O1; subst; congruence.
  - inversion O2; subst; congruence.
  - assert (x = x2) by congruence. subst x2. f_equal. eapply Fn; eauto.
Qed.
Lemma own_with a b : own_steps e F a b -> steps_with K e F a b.
Proof. induction 1 as [c | x y z S1 S2 IH]; [constructor | eapply with_more; [apply with_own; exact S1 | exact IH]]. Qed.
Lemma returning_end p m b : returning e F p m -> ~ step_with K e F (p, m) b.
Proof. intros (t & s & d & i & E & D & R) S. inversion S as [? ? O | ]; subst; [inversion O; subst |]; congruence. Qed.
Lemma on_the_way a b p m : steps_with K e F a (p, m) -> returning e F p m -> steps_with K e F a b -> steps_with K e F b (p, m).
Proof.
  intros S1 R S2. revert S1. induction S2 as [c | a b c S S2 IH]; intros S1; [exact S1 |]. apply IH. inversion S1 as [| a' b' c' T S1']; subst; [destruct (returning_end _ _ _ R S) |]. now rewrite (step_once _ _ _ S T).
Qed.
End Unique.
Lemma own_on_the_way e F a b p m : NoDup (x64_labels F) -> own_steps e F a (p, m) -> returning e F p m -> own_steps e F a b -> own_steps e F b (p, m).
Proof.
  intros Nd S1 R S2. revert S1. induction S2 as [c | a b c S S2 IH]; intros S1; [exact S1 |]. apply IH. inversion S1 as [| a' b' c' T S1']; subst.
  - destruct (returning_end (fun _ _ _ _ => False) e F _ _ b R). now apply with_own.
  - now rewrite (own_step_once e F Nd _ _ _ S T).
Qed.
Theorem source_unique src s C n code lives X F (K : nat -> Z -> state -> state -> Prop) e : front src = Ok s -> immcgen s = Ok C -> allocate_regs n C = Ok (code, lives) -> x64gen code lives = Ok X -> x64_function X F ->
  (forall p a m m1 m2, K p a m m1 -> K p a m m2 -> m1 = m2) ->
  forall a b p m, steps_with K e F a (p, m) -> returning e F p m -> steps_with K e F a b -> steps_with K e F b (p, m).
Proof. intros Hf Hi Al Xg XF Fn a b p m. apply on_the_way; [| exact Fn]. eapply function_labels; [exact XF |]. now destruct (source_assembly_labels _ _ _ _ _ _ _ Hf Hi Al Xg). Qed.
Theorem source_own_unique src s C n code lives X F e : front src = Ok s -> immcgen s = Ok C -> allocate_regs n C = Ok (code, lives) -> x64gen code lives = Ok X -> x64_function X F ->
  forall a b p m, own_steps e F a (p, m) -> returning e F p m -> own_steps e F a b -> own_steps e F b (p, m).
Proof. intros Hf Hi Al Xg XF a b p m. apply own_on_the_way. eapply function_labels; [exact XF |]. now destruct (source_assembly_labels _ _ _ _ _ _ _ Hf Hi Al Xg). Qed.
