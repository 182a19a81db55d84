(** Facts about the target machine: registers, sizes, arithmetic modulo a size, straight-line code. *)
From Coq Require Import Lia ZifyBool.
From Verif Require Import Base X64Model X64Decode X64Isa OpSpec.
Open Scope Z_scope.

Lemma nbits_pos s : 0 < nbits s.
Proof. destruct s; reflexivity. Qed.
Lemma pow_pos s : 0 < 2 ^ nbits s.
Proof. destruct s; reflexivity. Qed.
Lemma pow_half s : 2 ^ nbits s = 2 * 2 ^ (nbits s - 1).
Proof. destruct s; reflexivity. Qed.

Lemma reg_eqb_true a b : reg_eqb a b = true <-> a = b.
Proof. split; [destruct a, b; cbn; congruence | intros ->; destruct b; reflexivity]. Qed.
Lemma reg_eqb_refl a : reg_eqb a a = true.
Proof. apply reg_eqb_true; reflexivity. Qed.
Lemma reg_eqb_false a b : reg_eqb a b = false <-> a <> b.
Proof.
  split; intros H.
  - intros ->. rewrite reg_eqb_refl in H. discriminate.
  - destruct (reg_eqb a b) eqn:E; [apply reg_eqb_true in E; contradiction | reflexivity].
Qed.
Lemma reg_dec (a b : reg) : {a = b} + {a <> b}.
Proof. decide equality. Qed.

Lemma rget_rset f r v q : rget (rset f r v) q = if reg_eqb q r then v else rget f q.
Proof. destruct q; reflexivity. Qed.
Lemma rget_rset_same f r v : rget (rset f r v) r = v.
Proof. rewrite rget_rset, reg_eqb_refl. reflexivity. Qed.
Lemma rget_rset_other f r v q : q <> r -> rget (rset f r v) q = rget f q.
Proof. intros H. rewrite rget_rset. apply reg_eqb_false in H. rewrite H. reflexivity. Qed.

(** * low and signed *)
Lemma low_range s x : 0 <= low s x < 2 ^ nbits s.
Proof. apply Z.mod_pos_bound, pow_pos. Qed.
Lemma low_small s x : 0 <= x < 2 ^ nbits s -> low s x = x.
Proof. apply Z.mod_small. Qed.
Lemma low_low s x : low s (low s x) = low s x.
Proof. apply low_small, low_range. Qed.
Lemma mod_mod_pow x a b : 0 <= a <= b -> (x mod 2 ^ b) mod 2 ^ a = x mod 2 ^ a.
Proof.
  intros H. symmetry. apply Znumtheory.Zmod_div_mod.
  - lia.
  - lia.
  - exists (2 ^ (b - a)). rewrite <- Z.pow_add_r by lia. f_equal. lia.
Qed.
Lemma low_low_le s t x : nbits s <= nbits t -> low s (low t x) = low s x.
Proof. intros H. apply mod_mod_pow. pose proof (nbits_pos s). lia. Qed.
Lemma low_opp_mult s x k : low s (x + k * 2 ^ nbits s) = low s x.
Proof. apply Z.mod_add. pose proof (pow_pos s). lia. Qed.
Lemma signed_eq s x : signed s x = low s x \/ signed s x = low s x - 2 ^ nbits s.
Proof. unfold signed, wraps, low. destruct (_ <? _); auto. Qed.
Lemma low_signed s x : low s (signed s x) = low s x.
Proof.
  destruct (signed_eq s x) as [-> | ->].
  - apply low_low.
  - replace (low s x - 2 ^ nbits s) with (low s x + (-1) * 2 ^ nbits s) by lia.
    rewrite low_opp_mult. apply low_low.
Qed.
Lemma signed_range s x : - 2 ^ (nbits s - 1) <= signed s x < 2 ^ (nbits s - 1).
Proof.
  unfold signed, wraps. pose proof (low_range s x) as H. unfold low in H.
  pose proof (pow_half s). destruct (x mod 2 ^ nbits s <? 2 ^ (nbits s - 1)) eqn:E; lia.
Qed.
Lemma signed_of_low s x y : low s x = low s y -> signed s x = signed s y.
Proof. unfold signed, wraps, low. intros ->. reflexivity. Qed.
Lemma signed_low s x : signed s (low s x) = signed s x.
Proof. apply signed_of_low, low_low. Qed.
Lemma signed_small s x : - 2 ^ (nbits s - 1) <= x < 2 ^ (nbits s - 1) -> signed s x = x.
Proof.
  intros H. unfold signed, wraps. pose proof (pow_half s).
  destruct (Z_lt_le_dec x 0) as [N | N].
  - assert (x mod 2 ^ nbits s = x + 2 ^ nbits s) as ->.
    { symmetry. apply Z.mod_unique with (q := -1); lia. }
    destruct (_ <? _) eqn:E; lia.
  - rewrite Z.mod_small by lia. destruct (_ <? _) eqn:E; lia.
Qed.
Lemma signed_low_le s t x : nbits s <= nbits t -> signed s (low t x) = signed s x.
Proof. intros H. apply signed_of_low, low_low_le, H. Qed.

Lemma low_interp u s x : low s (interp u s x) = low s x.
Proof. destruct u; [apply low_low | apply low_signed]. Qed.
Lemma interp_of_low u s x y : low s x = low s y -> interp u s x = interp u s y.
Proof. destruct u; cbn; [auto | apply signed_of_low]. Qed.
Lemma interp_interp u s x : interp u s (interp u s x) = interp u s x.
Proof. apply interp_of_low, low_interp. Qed.
Lemma interp_low u s x : interp u s (low s x) = interp u s x.
Proof. apply interp_of_low, low_low. Qed.
Lemma low_interp_le u s t x : nbits s <= nbits t -> low s (interp u t x) = low s x.
Proof.
  intros H. rewrite <- (low_low_le s t (interp u t x) H), low_interp. apply low_low_le, H.
Qed.
Lemma in_range_interp u s x : in_range u s x = true -> interp u s x = x.
Proof.
  destruct u; cbn; intros H.
  - apply low_small. lia.
  - apply signed_small. lia.
Qed.
Lemma interp_in_range u s x : in_range u s (interp u s x) = true.
Proof.
  destruct u; cbn.
  - pose proof (low_range s x). lia.
  - pose proof (signed_range s x). lia.
Qed.

(** * Arithmetic modulo a size *)
Lemma low_eq_diff s x y : low s x = low s y <-> exists k, x = y + k * 2 ^ nbits s.
Proof.
  split.
  - unfold low. intros H. exists (x / 2 ^ nbits s - y / 2 ^ nbits s).
    pose proof (pow_pos s).
    pose proof (Z.div_mod x (2 ^ nbits s) ltac:(lia)). pose proof (Z.div_mod y (2 ^ nbits s) ltac:(lia)). nia.
  - intros [k ->]. apply low_opp_mult.
Qed.
Lemma low_add s a b c d : low s a = low s c -> low s b = low s d -> low s (a + b) = low s (c + d).
Proof. rewrite !low_eq_diff. intros [k ->] [l ->]. exists (k + l). ring. Qed.
Lemma low_sub s a b c d : low s a = low s c -> low s b = low s d -> low s (a - b) = low s (c - d).
Proof. rewrite !low_eq_diff. intros [k ->] [l ->]. exists (k - l). ring. Qed.
Lemma low_opp s a c : low s a = low s c -> low s (- a) = low s (- c).
Proof. rewrite !low_eq_diff. intros [k ->]. exists (- k). ring. Qed.
Lemma low_mul s a b c d : low s a = low s c -> low s b = low s d -> low s (a * b) = low s (c * d).
Proof.
  rewrite !low_eq_diff. intros [k ->] [l ->].
  exists (k * d + c * l + k * l * 2 ^ nbits s). ring.
Qed.
Lemma low_testbit s x i : 0 <= i -> Z.testbit (low s x) i = (i <? nbits s) && Z.testbit x i.
Proof.
  intros H. unfold low. destruct (i <? nbits s) eqn:E.
  - rewrite Z.mod_pow2_bits_low by lia. reflexivity.
  - rewrite Z.mod_pow2_bits_high by (pose proof (nbits_pos s); lia). reflexivity.
Qed.
Lemma low_ext s x y : (forall i, 0 <= i < nbits s -> Z.testbit x i = Z.testbit y i) -> low s x = low s y.
Proof.
  intros H. apply Z.bits_inj'. intros i Hi. rewrite !low_testbit by lia.
  destruct (i <? nbits s) eqn:E; [| reflexivity]. cbn. apply H. lia.
Qed.
Lemma low_bits s x y : low s x = low s y -> forall i, 0 <= i < nbits s -> Z.testbit x i = Z.testbit y i.
Proof.
  intros H i Hi. assert (Z.testbit (low s x) i = Z.testbit (low s y) i) as E by (rewrite H; reflexivity).
  rewrite !low_testbit in E by lia. replace (i <? nbits s) with true in E by lia. exact E.
Qed.
Lemma low_land s a b c d : low s a = low s c -> low s b = low s d -> low s (Z.land a b) = low s (Z.land c d).
Proof.
  intros H1 H2. apply low_ext. intros i Hi. rewrite !Z.land_spec.
  rewrite (low_bits s a c), (low_bits s b d) by auto. reflexivity.
Qed.
Lemma low_lor s a b c d : low s a = low s c -> low s b = low s d -> low s (Z.lor a b) = low s (Z.lor c d).
Proof.
  intros H1 H2. apply low_ext. intros i Hi. rewrite !Z.lor_spec.
  rewrite (low_bits s a c), (low_bits s b d) by auto. reflexivity.
Qed.
Lemma low_lxor s a b c d : low s a = low s c -> low s b = low s d -> low s (Z.lxor a b) = low s (Z.lxor c d).
Proof.
  intros H1 H2. apply low_ext. intros i Hi. rewrite !Z.lxor_spec.
  rewrite (low_bits s a c), (low_bits s b d) by auto. reflexivity.
Qed.
Lemma low_shiftl s a c n : 0 <= n -> low s a = low s c -> low s (Z.shiftl a n) = low s (Z.shiftl c n).
Proof.
  intros Hn H. apply low_ext. intros i Hi. rewrite !Z.shiftl_spec by lia.
  destruct (Z_lt_le_dec i n).
  - rewrite !Z.testbit_neg_r by lia. reflexivity.
  - apply (low_bits s a c H). lia.
Qed.

(** * put *)
Lemma rget_put_other f s r v q : q <> r -> rget (put f s r v) q = rget f q.
Proof. intros H. destruct s; apply rget_rset_other, H. Qed.
Lemma low_put f s r v t : nbits t <= nbits s -> low t (rget (put f s r v) r) = low t v.
Proof.
  intros H. unfold put. destruct s; rewrite rget_rset_same; try (apply low_low_le, H).
  - destruct t; cbn in H; try lia. rewrite Z.add_comm, low_opp_mult. apply low_low.
  - rewrite Z.add_comm. destruct t; cbn in H; try lia.
    + replace (rget f r / 2 ^ nbits S2 * 2 ^ nbits S2) with (rget f r / 2 ^ nbits S2 * 2 ^ 8 * 2 ^ nbits S1) by (cbn; ring).
      rewrite low_opp_mult. apply low_low_le. cbn. lia.
    + rewrite low_opp_mult. apply low_low.
Qed.
Lemma rget_put4 f r v : rget (put f S4 r v) r = low S4 v.
Proof. unfold put. apply rget_rset_same. Qed.
Lemma rget_put8 f r v : rget (put f S8 r v) r = low S8 v.
Proof. unfold put. apply rget_rset_same. Qed.

(** * Straight-line code *)
Lemma insns_app a b : insns (a ++ b) = match insns a, insns b with Some x, Some y => Some (x ++ y) | _, _ => None end.
Proof.
  induction a as [| c a IH]; [cbn; destruct (insns b); reflexivity |].
  cbn. destruct c; try reflexivity. destruct (decode t src dst); [| reflexivity].
  rewrite IH. destruct (insns a), (insns b); reflexivity.
Qed.
Lemma exec_list_app e a b m :
  exec_list e (a ++ b) m = match exec_list e a m with Next m => exec_list e b m | o => o end.
Proof.
  revert m. induction a as [| i a IH]; intros m; [reflexivity |].
  cbn. destruct (exec e i m); try reflexivity. apply IH.
Qed.
Lemma runs_app e a b m m1 o : runs e a m (Next m1) -> runs e b m1 o -> runs e (a ++ b) m o.
Proof.
  intros (x & H1 & H2) (y & H3 & H4). exists (x ++ y). split.
  - rewrite insns_app, H1, H3. reflexivity.
  - rewrite exec_list_app, H2. exact H4.
Qed.
Lemma runs_nil e m : runs e [] m (Next m).
Proof. exists []. split; reflexivity. Qed.
Lemma runs_one e t s d i m : decode t s d = Some i -> runs e [X64_INST t s d] m (exec e i m).
Proof.
  intros H. exists [i]. split.
  - cbn. rewrite H. reflexivity.
  - cbn. destruct (exec e i m); reflexivity.
Qed.
Lemma runs_det e c m o1 o2 : runs e c m o1 -> runs e c m o2 -> o1 = o2.
Proof. intros (l & A & B) (l' & A' & B'). congruence. Qed.
Lemma runs_app_inv e a b m o :
  runs e (a ++ b) m o ->
  exists la lb, insns a = Some la /\ insns b = Some lb /\
    o = match exec_list e la m with Next m => exec_list e lb m | o => o end.
Proof.
  intros (l & H & <-). rewrite insns_app in H. destruct (insns a) as [la |], (insns b) as [lb |]; try discriminate.
  injection H as <-. exists la, lb. rewrite exec_list_app. auto.
Qed.

(** * Conditions *)
Lemma cmp_signed s a b :
  eqb (sf (cmp_flags s a b)) (ovf (cmp_flags s a b)) = (signed s b <=? signed s a).
Proof.
  unfold cmp_flags; cbn [sf ovf].
  pose proof (signed_range s a). pose proof (signed_range s b). pose proof (pow_half s).
  assert (low s (a - b) = low s (signed s a - signed s b)) as E.
  { apply low_sub; symmetry; apply low_signed. }
  assert (signed s (a - b) = signed s (signed s a - signed s b)) as -> by (apply signed_of_low; exact E).
  set (x := signed s a - signed s b).
  assert (signed s x = x \/ (x >= 2 ^ (nbits s - 1) /\ signed s x = x - 2 ^ nbits s)
          \/ (x < - 2 ^ (nbits s - 1) /\ signed s x = x + 2 ^ nbits s)) as D.
  { destruct (Z_lt_le_dec x (- 2 ^ (nbits s - 1))).
    - right; right. split; [lia |].
      rewrite <- (signed_small s (x + 2 ^ nbits s)) by (unfold x in *; lia).
      apply signed_of_low. apply low_eq_diff. exists (-1). lia.
    - destruct (Z_lt_le_dec x (2 ^ (nbits s - 1))).
      + left. apply signed_small. lia.
      + right; left. split; [lia |].
        rewrite <- (signed_small s (x - 2 ^ nbits s)) by (unfold x in *; lia).
        apply signed_of_low. apply low_eq_diff. exists 1. lia. }
  destruct (signed s b <=? signed s a) eqn:C; apply eqb_true_iff || apply eqb_false_iff.
  - destruct (signed s x <? 0) eqn:F; destruct (signed s x =? x) eqn:G; cbn; try reflexivity; unfold x in *; lia.
  - destruct (signed s x <? 0) eqn:F; destruct (signed s x =? x) eqn:G; cbn; try congruence; unfold x in *; lia.
Qed.
Lemma cmp_zero s a b : zf (cmp_flags s a b) = (low s a =? low s b).
Proof.
  unfold cmp_flags; cbn [zf].
  assert (low s (a - b) = 0 <-> low s a = low s b) as H.
  { replace 0 with (low s (b - b)) by (rewrite Z.sub_diag; apply low_small; pose proof (pow_pos s); lia).
    rewrite !low_eq_diff. split; intros [k H]; exists k; lia. }
  destruct (low s (a - b) =? 0) eqn:E, (low s a =? low s b) eqn:F; lia.
Qed.
Lemma low_signed_inj s a b : low s a = low s b <-> signed s a = signed s b.
Proof.
  split; [apply signed_of_low |]. intros H. rewrite <- (low_signed s a), <- (low_signed s b), H. reflexivity.
Qed.
