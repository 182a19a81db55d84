(** Facts about memory of the target machine. *)
From Coq Require Import Lia ZifyBool FMapPositive.
From Verif Require Import Base X64genModel X64Decode X64Isa OpSpec IsaProofs.
Open Scope Z_scope.

Lemma cell_inj a b : 0 <= a -> 0 <= b -> cell a = cell b -> a = b.
Proof. unfold cell. intros Ha Hb H. apply (f_equal Z.pos) in H. rewrite !Z2Pos.id in H by lia. lia. Qed.
Lemma peek_poke M a b v : 0 <= a -> 0 <= b -> peek (poke M a v) b = if b =? a then v else peek M b.
Proof.
  intros Ha Hb. unfold peek, poke; cbn. destruct (b =? a) eqn:E.
  - assert (b = a) as -> by lia. rewrite PositiveMap.gss. reflexivity.
  - rewrite PositiveMap.gso; [reflexivity |]. intros H. apply cell_inj in H; lia.
Qed.
Lemma regions_store n : forall M a v, regions (store_bytes M a n v) = regions M.
Proof. induction n as [| n IH]; intros M a v; [reflexivity |]. cbn [store_bytes]. rewrite IH. reflexivity. Qed.

Lemma byte_0 v : byte v 0 = v mod 256.
Proof. unfold byte. rewrite Z.mul_0_r, Z.pow_0_r, Z.div_1_r. reflexivity. Qed.
Lemma byte_succ v i : 0 <= i -> byte v (i + 1) = byte (v / 256) i.
Proof.
  intros Hi. unfold byte. f_equal. rewrite Z.div_div by lia. f_equal.
  replace (8 * (i + 1)) with (8 + 8 * i) by lia. rewrite Z.pow_add_r by lia. reflexivity.
Qed.
Lemma byte_range v i : 0 <= byte v i < 256.
Proof. apply Z.mod_pos_bound. lia. Qed.
Lemma peek_store n : forall M a v b, 0 <= a -> 0 <= b ->
  peek (store_bytes M a n v) b = if (a <=? b) && (b <? a + Z.of_nat n) then byte v (b - a) else peek M b.
Proof.
  induction n as [| n IH]; intros M a v b Ha Hb.
  - cbn [store_bytes]. destruct ((a <=? b) && (b <? a + Z.of_nat 0)) eqn:E; [lia | reflexivity].
  - cbn [store_bytes]. rewrite IH by lia. rewrite peek_poke by lia.
    destruct (b =? a) eqn:E.
    + assert (b = a) as -> by lia. rewrite Z.sub_diag, byte_0.
      replace ((a + 1 <=? a) && (a <? a + 1 + Z.of_nat n)) with false by lia.
      replace ((a <=? a) && (a <? a + Z.of_nat (S n))) with true by lia. reflexivity.
    + replace ((a <=? b) && (b <? a + Z.of_nat (S n))) with ((a + 1 <=? b) && (b <? a + 1 + Z.of_nat n)) by lia.
      destruct ((a + 1 <=? b) && (b <? a + 1 + Z.of_nat n)) eqn:F; [| reflexivity].
      replace (b - a) with (b - (a + 1) + 1) by lia. rewrite byte_succ by lia. reflexivity.
Qed.
Lemma byte_low v w n : v mod 2 ^ (8 * n) = w mod 2 ^ (8 * n) -> forall i, 0 <= i < n -> byte v i = byte w i.
Proof.
  intros H i Hi.
  assert (forall x, byte x i = byte (x mod 2 ^ (8 * n)) i) as E.
  { intros x. unfold byte. apply Z.bits_inj'. intros k Hk.
    change 256 with (2 ^ 8). destruct (Z_lt_le_dec k 8).
    - rewrite !Z.mod_pow2_bits_low by lia. rewrite !Z.div_pow2_bits by lia.
      rewrite Z.mod_pow2_bits_low by lia. reflexivity.
    - rewrite !Z.mod_pow2_bits_high by lia. reflexivity. }
  rewrite (E v), (E w), H. reflexivity.
Qed.
Lemma nbits_nbytes s : nbits s = 8 * size_bytes s.
Proof. destruct s; reflexivity. Qed.
Lemma byte_of_low s v w : low s v = low s w -> forall i, 0 <= i < size_bytes s -> byte v i = byte w i.
Proof. unfold low. rewrite nbits_nbytes. apply byte_low. Qed.
Lemma valid_accessible M a n : valid M a n = true <-> accessible M a (Z.of_nat n).
Proof.
  unfold valid, accessible. rewrite andb_true_iff, existsb_exists. split.
  - intros (Ha & r & Hin & Hr). unfold in_region in Hr. split; [lia |]. exists r. split; [exact Hin | lia].
  - intros (Ha & r & Hin & Hr). split; [lia |]. exists r. split; [exact Hin |]. unfold in_region. lia.
Qed.

Lemma store_written M s a v : accessible M a (size_bytes s) ->
  exists M', store M s a v = Some M' /\ written M a (size_bytes s) v M'.
Proof.
  intros H. unfold store. assert (valid M a (nbytes s) = true) as -> by (apply valid_accessible, H).
  eexists. split; [reflexivity |]. split; [apply regions_store |].
  intros b Hb. destruct H as (Ha & _). apply peek_store; lia.
Qed.
Lemma written_low M s a v w M' : low s v = low s w -> written M a (size_bytes s) v M' -> written M a (size_bytes s) w M'.
Proof.
  intros E (HR & H). split; [exact HR |]. intros b Hb. rewrite H by exact Hb.
  destruct ((a <=? b) && (b <? a + size_bytes s)) eqn:F; [| reflexivity]. apply (byte_of_low s v w E). lia.
Qed.

Lemma load_bytes_range n : forall M a, byte_memory M -> 0 <= a -> 0 <= load_bytes M a n < 2 ^ (8 * Z.of_nat n).
Proof.
  induction n as [| n IH]; intros M a HM Ha; [cbn; lia |].
  cbn [load_bytes]. specialize (IH M (a + 1) HM ltac:(lia)). specialize (HM a Ha).
  replace (8 * Z.of_nat (S n)) with (8 + 8 * Z.of_nat n) by lia. rewrite Z.pow_add_r by lia. change (2 ^ 8) with 256. nia.
Qed.
Lemma load_bytes_byte n : forall M a i, byte_memory M -> 0 <= a -> 0 <= i < Z.of_nat n -> byte (load_bytes M a n) i = peek M (a + i).
Proof.
  induction n as [| n IH]; intros M a i HM Ha Hi; [lia |].
  cbn [load_bytes]. pose proof (HM a Ha) as Hp.
  destruct (Z.eq_dec i 0) as [-> | N].
  - rewrite byte_0, Z.add_0_r. rewrite Z.mul_comm, Z.mod_add by lia. apply Z.mod_small. lia.
  - replace i with ((i - 1) + 1) at 1 by lia. rewrite byte_succ by lia.
    replace ((peek M a + 256 * load_bytes M (a + 1) n) / 256) with (load_bytes M (a + 1) n).
    + rewrite IH by (auto; lia). f_equal. lia.
    + rewrite Z.mul_comm, Z.div_add by lia. rewrite Z.div_small by lia. lia.
Qed.
Lemma byte_ext n : forall v w, 0 <= v < 2 ^ (8 * Z.of_nat n) -> 0 <= w < 2 ^ (8 * Z.of_nat n) ->
  (forall i, 0 <= i < Z.of_nat n -> byte v i = byte w i) -> v = w.
Proof.
  induction n as [| n IH]; intros v w Hv Hw H; [cbn in *; lia |].
  assert (v mod 256 = w mod 256) as E0 by (rewrite <- !byte_0; apply H; lia).
  replace (8 * Z.of_nat (S n)) with (8 * Z.of_nat n + 8) in Hv, Hw by lia.
  rewrite Z.pow_add_r in Hv, Hw by lia. change (2 ^ 8) with 256 in Hv, Hw.
  assert (v / 256 = w / 256) as E1.
  { apply IH; try (split; [apply Z.div_pos; lia | apply Z.div_lt_upper_bound; lia]).
    intros i Hi. rewrite <- !byte_succ by lia. apply H. lia. }
  rewrite (Z.div_mod v 256), (Z.div_mod w 256) by lia. lia.
Qed.
Lemma load_holds M s a v : accessible M a (size_bytes s) -> holds M a (size_bytes s) v -> byte_memory M -> load M s a = Some v.
Proof.
  intros H (Hv & Hb) HM. unfold load. assert (valid M a (nbytes s) = true) as -> by (apply valid_accessible, H).
  destruct H as (Ha & _). f_equal. apply (byte_ext (nbytes s)).
  - apply load_bytes_range; assumption.
  - exact Hv.
  - intros i Hi. rewrite load_bytes_byte by assumption. apply Hb. exact Hi.
Qed.
Lemma load_some M s a : accessible M a (size_bytes s) -> byte_memory M -> exists v, load M s a = Some v /\ holds M a (size_bytes s) v.
Proof.
  intros H HM. unfold load. assert (valid M a (nbytes s) = true) as -> by (apply valid_accessible, H).
  destruct H as (Ha & _). eexists. split; [reflexivity |]. split; [apply load_bytes_range; assumption |].
  intros i Hi. symmetry. apply load_bytes_byte; assumption.
Qed.
Lemma holds_unique M s a v w : holds M a (size_bytes s) v -> holds M a (size_bytes s) w -> v = w.
Proof.
  intros (Hv & H1) (Hw & H2). apply (byte_ext (nbytes s)); [exact Hv | exact Hw |].
  intros i Hi. rewrite <- H1, <- H2 by exact Hi. reflexivity.
Qed.
Lemma written_holds M s a v M' : 0 <= a -> written M a (size_bytes s) v M' -> holds M' a (size_bytes s) (low s v).
Proof.
  intros Ha (_ & H). split; [unfold low; rewrite <- nbits_nbytes; apply (low_range s) |].
  intros i Hi. rewrite H by lia. replace ((a <=? a + i) && (a + i <? a + size_bytes s)) with true by lia.
  replace (a + i - a) with i by lia. apply (byte_of_low s); [| exact Hi]. symmetry. apply low_low.
Qed.
Lemma written_byte_memory M a n v M' : byte_memory M -> written M a n v M' -> byte_memory M'.
Proof. intros HM (_ & H) b Hb. rewrite H by exact Hb. destruct (_ && _); [apply byte_range | apply HM, Hb]. Qed.
Lemma written_accessible M a n v M' b k : written M a n v M' -> accessible M b k -> accessible M' b k.
Proof. intros (HR & _) (Hb & H). split; [exact Hb |]. rewrite HR. exact H. Qed.
Lemma written_holds_other M a n v M' b k w : 0 <= b -> written M a n v M' -> b + k <= a \/ a + n <= b ->
  holds M b k w -> holds M' b k w.
Proof.
  intros Hb (_ & H) D (Hw & Hh). split; [exact Hw |]. intros i Hi. rewrite H by lia.
  replace ((a <=? b + i) && (b + i <? a + n)) with false by lia. apply Hh, Hi.
Qed.
