(** The live ranges the allocator computes *)
From Verif Require Import Base MapModel SetModel ImmcModel ImmcSem RegallocModel ISetProofs ElabProofs RegSpec.
Open Scope Z_scope.

Lemma list_set_other {A} : forall (l : list A) i x l' j, list_set l i x = Some l' -> j <> i -> nth_error l' j = nth_error l j.
Proof.
  induction l as [| a l IH]; intros i x l' j H N; destruct i; cbn in H; try discriminate H.
  - injection H as <-. destruct j; [congruence | reflexivity].
  - destruct (list_set l i x) as [t |] eqn:E; [| discriminate H]. injection H as <-. destruct j; [reflexivity |]. cbn. eapply IH; [exact E | lia].
Qed.
Lemma at_Z_ok {A} (l : list A) i x : at_Z l i = Ok x -> 0 <= i /\ nth_error l (Z.to_nat i) = Some x.
Proof. unfold at_Z. destruct (i <? 0) eqn:E; [discriminate |]. intros H. apply deref_ok in H. split; [lia | exact H]. Qed.

(** * Ranges *)
Notation range l r x := (nth_error l (Z.to_nat r) = Some x).
Record ranges (l : list liveness) (cur : Z) : Prop := {
  r_le : forall i x, nth_error l i = Some x -> first_def x <= last_use x <= cur;
  r_mono : forall i j x y, (i <= j)%nat -> nth_error l i = Some x -> nth_error l j = Some y -> first_def x <= first_def y }.
Definition grows (l l' : list liveness) : Prop := forall i x, nth_error l i = Some x -> exists y, nth_error l' i = Some y /\ first_def y = first_def x /\ last_use x <= last_use y.
Lemma grows_refl l : grows l l.
Proof. intros i x E. exists x. split; [exact E |]. split; [reflexivity | lia]. Qed.
Lemma grows_trans a b c : grows a b -> grows b c -> grows a c.
Proof. intros F G i x E. destruct (F _ _ E) as (y & E1 & A & B). destruct (G _ _ E1) as (z & E2 & A' & B'). exists z. split; [exact E2 |]. split; [congruence | lia]. Qed.
Lemma ranges_later l i j : ranges l i -> i <= j -> ranges l j.
Proof. intros [A B] L. split; [| exact B]. intros k x E. apply A in E. lia. Qed.
Lemma set_last_use_ok l r v l' : set_last_use l r v = Ok l' -> ranges l v -> 0 <= r /\ ranges l' v /\ grows l l' /\ exists x, range l' r x /\ last_use x = v.
Proof.
  unfold set_last_use. intros H [A B]. apply bind_ok in H as (x & X & H). apply at_Z_ok in X as [R X]. apply deref_ok in H.
  assert (E1 := list_set_nth _ _ _ _ H). assert (E2 := fun j => list_set_other _ _ _ _ j H).
  assert (Get : forall j y, nth_error l' j = Some y -> exists x0, nth_error l j = Some x0 /\ first_def y = first_def x0 /\ (y = x0 \/ last_use y = v /\ j = Z.to_nat r)).
  { intros j y Y. destruct (Nat.eq_dec j (Z.to_nat r)) as [-> | N]; [| rewrite E2 in Y by exact N; eauto]. rewrite E1 in Y. injection Y as <-. exists x. auto. }
  split; [exact R |]. split; [| split].
  - split.
    + intros j y Y. destruct (Get _ _ Y) as (x0 & X0 & F & [-> | [L ->]]); apply A in X0; lia.
    + intros i j y z Le Y Z0. destruct (Get _ _ Y) as (x0 & X0 & F & _). destruct (Get _ _ Z0) as (z0 & Z1 & G & _). rewrite F, G. eapply B; eauto.
  - intros j y Y. destruct (Nat.eq_dec j (Z.to_nat r)) as [-> | N].
    + rewrite X in Y. injection Y as <-. exists (mklv (first_def x) v). split; [exact E1 |]. split; [reflexivity |]. apply A in X. cbn. lia.
    + exists y. rewrite E2 by exact N. split; [exact Y |]. split; [reflexivity | lia].
  - eexists. split; [exact E1 | reflexivity].
Qed.
Lemma fill_ok l n i : ranges l i -> ranges (fill l n (new_liveness i)) i /\ grows l (fill l n (new_liveness i)) /\ forall r, 0 <= r < n -> exists x, range (fill l n (new_liveness i)) r x /\ first_def x <= i.
Proof.
  intros [A B]. unfold fill. set (k := (Z.to_nat n - length l)%nat).
  assert (Get : forall j y, nth_error (l ++ repeat (new_liveness i) k) j = Some y -> nth_error l j = Some y \/ (length l <= j)%nat /\ y = new_liveness i).
  { intros j y Y. destruct (Nat.lt_ge_cases j (length l)) as [L | L]; [left; now rewrite nth_error_app1 in Y by exact L |]. right. split; [exact L |]. rewrite nth_error_app2 in Y by exact L. apply nth_error_In, repeat_spec in Y. exact Y. }
  split; [split | split].
  - intros j y Y. destruct (Get _ _ Y) as [Y' | [_ ->]]; [now apply A in Y' | cbn; lia].
  - intros a b x y Le X Y. destruct (Get _ _ X) as [X' | [LX ->]]; destruct (Get _ _ Y) as [Y' | [LY ->]].
    + eapply B; eauto.
    + apply A in X'. cbn. lia.
    + assert (b < length l)%nat by (apply nth_error_Some; congruence). lia.
    + lia.
  - intros j y Y. exists y. rewrite nth_error_app1 by (apply nth_error_Some; congruence). split; [exact Y |]. split; [reflexivity | lia].
  - intros r R. assert (Ln : (Z.to_nat r < length (l ++ repeat (new_liveness i) k))%nat) by (rewrite app_length, repeat_length; lia).
    destruct (nth_error (l ++ repeat (new_liveness i) k) (Z.to_nat r)) as [y |] eqn:Y; [| apply nth_error_None in Y; lia]. exists y. split; [reflexivity |]. destruct (Get _ _ Y) as [Y' | [_ ->]]; [apply A in Y'; lia | cbn; lia].
Qed.

(** [r] is read at [i]; it is written at [i] *)
Definition used (l : list liveness) (r i : Z) : Prop := 0 <= r /\ exists x, range l r x /\ i <= last_use x.
Definition defined (l : list liveness) (r i : Z) : Prop := 0 <= r -> exists x, range l r x /\ first_def x <= i.
Lemma used_grows l l' r i : grows l l' -> used l r i -> used l' r i.
Proof. intros G (R & x & X & L). split; [exact R |]. destruct (G _ _ X) as (y & Y & _ & L'). exists y. split; [exact Y | lia]. Qed.
Lemma defined_grows l l' r i : grows l l' -> defined l r i -> defined l' r i.
Proof. intros G D R. destruct (D R) as (x & X & L). destruct (G _ _ X) as (y & Y & F & _). exists y. split; [exact Y | lia]. Qed.
Lemma use_src_ok l o i l' : use_src l o i = Ok l' -> ranges l i -> ranges l' i /\ grows l l' /\ forall r, In r (operand_register o) -> used l' r i.
Proof.
  unfold use_src. intros H R. destruct (src_reg o) as [r |] eqn:S.
  - apply set_last_use_ok in H as (Rr & R' & G & x & X & L); [| exact R]. split; [exact R' |]. split; [exact G |]. intros r' I. assert (r' = r).
    { destruct o as [o |]; [| destruct I]. destruct o; try destruct I as [<- | []]; try contradiction; cbn in S; congruence. } subst r'. split; [exact Rr |]. exists x. split; [exact X | lia].
  - injection H as <-. split; [exact R |]. split; [apply grows_refl |]. intros r I. destruct o as [o |]; [| destruct I]. destruct o; try discriminate S; destruct I.
Qed.
Lemma liveness_immc_ok l c i l' : liveness_immc l c i = Ok l' -> ranges l i -> ranges l' i /\ grows l l' /\ (forall r, In r (reads c) -> used l' r i) /\ (forall r, writes c = Some r -> defined l' r i).
Proof.
  intros H R. destruct c as [t d f g | | |]; cbn [liveness_immc] in H; try (injection H as <-; split; [exact R |]; split; [apply grows_refl |]; split; [intros r [] | discriminate]).
  apply bind_ok in H as (l1 & H1 & H). apply bind_ok in H as (l2 & H2 & H). destruct (use_src_ok _ _ _ _ H1 R) as (R1 & G1 & U1). destruct (use_src_ok _ _ _ _ H2 R1) as (R2 & G2 & U2).
  assert (X : ranges l' i /\ grows l2 l' /\ (forall r, In r (match d with Some (IMMC_OPERAND_PTR r) => [reg_id r] | _ => [] end) -> used l' r i) /\ (forall r, writes (IMMC_INST t d f g) = Some r -> defined l' r i)).
  { destruct d as [d |]; [destruct d |]; try (injection H as <-; split; [exact R2 |]; split; [apply grows_refl |]; split; [intros r0 [] | discriminate]).
    - injection H as <-. destruct (fill_ok l2 (reg_id r + 1) i R2) as (A & B & C). split; [exact A |]. split; [exact B |]. split; [intros r0 [] |]. intros r1 E Rn. injection E as <-. apply C. lia.
    - apply set_last_use_ok in H as (Rr & R' & G & x & X & L); [| exact R2]. split; [exact R' |]. split; [exact G |]. split; [| discriminate]. intros r1 [<- | []]. split; [exact Rr |]. exists x. split; [exact X | lia]. }
  destruct X as (R3 & G3 & U3 & D3). split; [exact R3 |]. split; [exact (grows_trans _ _ _ G1 (grows_trans _ _ _ G2 G3)) |]. split; [| exact D3].
  intros r I. cbn [reads] in I. apply in_app_or in I as [I | I]; [| apply in_app_or in I as [I | I]].
  - eapply used_grows; [exact (grows_trans _ _ _ G2 G3) | now apply U1].
  - eapply used_grows; [exact G3 | now apply U2].
  - now apply U3.
Qed.
Definition marked (l : list liveness) (cs : list immc) (i : Z) : Prop :=
  forall k c, nth_error cs k = Some c -> (forall r, In r (reads c) -> used l r (i + Z.of_nat k)) /\ (forall r, writes c = Some r -> defined l r (i + Z.of_nat k)).
Lemma marked_grows l l' cs i : grows l l' -> marked l cs i -> marked l' cs i.
Proof. intros G M k c E. destruct (M _ _ E) as [A B]. split; intros r I; [eapply used_grows | eapply defined_grows]; eauto. Qed.
Lemma marked_cons l c cs i : (forall r, In r (reads c) -> used l r i) -> (forall r, writes c = Some r -> defined l r i) -> marked l cs (i + 1) -> marked l (c :: cs) i.
Proof.
  intros U D M [| k] x E; [injection E as <-; cbn; rewrite Z.add_0_r; auto |]. destruct (M _ _ E) as [A B]. replace (i + Z.of_nat (S k)) with (i + 1 + Z.of_nat k) by lia. auto.
Qed.
Lemma marked_app l a b i : marked l a i -> marked l b (i + Z.of_nat (length a)) -> marked l (a ++ b) i.
Proof.
  intros A B k c E. destruct (Nat.lt_ge_cases k (length a)) as [L | L]; [rewrite nth_error_app1 in E by exact L; now apply A |]. rewrite nth_error_app2 in E by exact L. destruct (B _ _ E) as [X Y].
  replace (i + Z.of_nat k) with (i + Z.of_nat (length a) + Z.of_nat (k - length a)) by lia. auto.
Qed.
Lemma liveness_immcs_ok : forall cs l i l', liveness_immcs l cs i = Ok l' -> ranges l i -> ranges l' (i + Z.of_nat (length cs)) /\ grows l l' /\ marked l' cs i.
Proof.
  induction cs as [| c cs IH]; intros l i l' H R; cbn [liveness_immcs] in H.
  - injection H as <-. split; [eapply ranges_later; [exact R | cbn; lia] |]. split; [apply grows_refl |]. intros k c E. destruct k; discriminate E.
  - apply bind_ok in H as (l1 & H1 & H). destruct (liveness_immc_ok _ _ _ _ H1 R) as (R1 & G1 & U & D). destruct (IH _ (i + 1) _ H (ranges_later _ i (i + 1) R1 ltac:(lia))) as (R2 & G2 & M).
    split; [cbn [length]; replace (i + Z.of_nat (S (length cs))) with (i + 1 + Z.of_nat (length cs)) by lia; exact R2 |]. split; [exact (grows_trans _ _ _ G1 G2) |].
    apply marked_cons; [intros r I; eapply used_grows; [exact G2 | auto] | intros r I; eapply defined_grows; [exact G2 | auto] | exact M].
Qed.
Lemma use_all_ok : forall rs l v l', use_all l rs v = Ok l' -> ranges l v -> ranges l' v /\ grows l l' /\ forall r, In r rs -> used l' r v.
Proof.
  induction rs as [| r rs IH]; intros l v l' H R; cbn [use_all] in H.
  - injection H as <-. split; [exact R |]. split; [apply grows_refl | intros r []].
  - apply bind_ok in H as (l1 & H1 & H). apply set_last_use_ok in H1 as (Rr & R1 & G1 & x & X & L); [| exact R]. destruct (IH _ _ _ H R1) as (R2 & G2 & U). split; [exact R2 |]. split; [exact (grows_trans _ _ _ G1 G2) |].
    intros r' [<- | I]; [| now apply U]. eapply used_grows; [exact G2 |]. split; [exact Rr |]. exists x. split; [exact X | lia].
Qed.
(** the blocks from position [off] on *)
Fixpoint outs_marked (l : list liveness) (g : list block) (off : Z) : Prop :=
  match g with
  | [] => True
  | b :: r => let e := off + Z.of_nat (length (b_immcs b)) in (forall x, imem (b_out b) x -> used l x e) /\ outs_marked l r e
  end.
Lemma outs_grows l l' : grows l l' -> forall g off, outs_marked l g off -> outs_marked l' g off.
Proof. intros G. induction g as [| b g IH]; intros off H; [exact I |]. destruct H as [A B]. split; [intros x I; eapply used_grows; eauto | auto]. Qed.
Definition code_of_blocks (g : list block) : list immc := flat_map b_immcs g.
Lemma analyze_ok : forall g l off l', analyze_register_liveness l g off = Ok l' -> ranges l off ->
  ranges l' (off + Z.of_nat (length (code_of_blocks g))) /\ grows l l' /\ marked l' (code_of_blocks g) off /\ outs_marked l' g off.
Proof.
  induction g as [| b g IH]; intros l off l' H R; cbn [analyze_register_liveness] in H.
  - injection H as <-. cbn. split; [rewrite Z.add_0_r; exact R |]. split; [apply grows_refl |]. split; [intros k c E; destruct k; discriminate E | exact I].
  - apply bind_ok in H as (l1 & H1 & H). unfold update_register_liveness in H1. apply bind_ok in H1 as (l0 & H0 & H1).
    destruct (liveness_immcs_ok _ _ _ _ H0 R) as (R0 & G0 & M0). destruct (use_all_ok _ _ _ _ H1 R0) as (R1 & G1 & U1). destruct (IH _ _ _ H R1) as (R2 & G2 & M2 & O2).
    unfold code_of_blocks in *. cbn [flat_map outs_marked]. rewrite app_length, Nat2Z.inj_add, Z.add_assoc. split; [exact R2 |]. split; [exact (grows_trans _ _ _ G0 (grows_trans _ _ _ G1 G2)) |]. split.
    + apply marked_app; [| exact M2]. eapply marked_grows; [exact (grows_trans _ _ _ G1 G2) | exact M0].
    + split; [| exact O2]. intros x I. eapply used_grows; [exact G2 | now apply U1].
Qed.
Lemma no_ranges cur : ranges [] cur.
Proof. split; [intros i x E | intros i j x y L E]; destruct i; discriminate E. Qed.
