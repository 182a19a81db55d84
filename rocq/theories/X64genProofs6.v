(** The code generated for one instruction does what the instruction means: strings. *)
From Coq Require Import Lia ZifyBool.
From Verif Require Import Base X64genModel X64Decode X64Isa OpSpec IsaProofs IsaMemProofs X64genProofs X64genProofs2 X64genProofs5.
Open Scope Z_scope.

(** * The number whose bytes are the characters *)
Fixpoint little (s : list Z) : Z := match s with [] => 0 | c :: r => c + 256 * little r end.
Definition octets (s : list Z) : Prop := Forall (fun c => 0 <= c < 256) s.
Lemma little_range s : octets s -> 0 <= little s < 2 ^ (8 * Z.of_nat (length s)).
Proof.
  induction 1 as [| c s H F IH]; [cbn; lia |]. cbn [little length]. replace (8 * Z.of_nat (S (length s))) with (8 + 8 * Z.of_nat (length s)) by lia.
  rewrite Z.pow_add_r by lia. change (2 ^ 8) with 256. nia.
Qed.
Lemma lor_add a b n : 0 <= n -> 0 <= b < 2 ^ n -> Z.lor (a * 2 ^ n) b = a * 2 ^ n + b.
Proof.
  intros Hn Hb. assert (Z.land (a * 2 ^ n) b = 0) as D.
  { apply Z.bits_inj'. intros k Hk. rewrite Z.land_spec, Z.bits_0. destruct (Z_lt_le_dec k n).
    - rewrite Z.mul_pow2_bits_low by lia. reflexivity.
    - rewrite <- (Z.mod_small b (2 ^ n)), Z.mod_pow2_bits_high by lia. apply Bool.andb_false_r. }
  rewrite Z.add_nocarry_lxor by exact D. symmetry. apply Z.lxor_lor. exact D.
Qed.
Lemma unit_little : forall s i acc, octets s -> 0 <= i -> i + Z.of_nat (length s) <= 8 -> 0 <= acc < 2 ^ (8 * i) -> str_unit s i acc = acc + little s * 2 ^ (8 * i).
Proof.
  induction s as [| c s IH]; intros i acc F Hi Hn Ha; [cbn; lia |]. inversion F as [| ? ? Hc F']; subst. cbn [str_unit little length] in *.
  assert (P : 2 ^ (8 * (i + 1)) = 256 * 2 ^ (8 * i)) by (replace (8 * (i + 1)) with (8 + 8 * i) by lia; rewrite Z.pow_add_r by lia; reflexivity).
  assert (Q : 0 < 2 ^ (8 * i)) by (apply Z.pow_pos_nonneg; lia).
  assert (B : c * 2 ^ (8 * i) < 2 ^ 64).
  { apply Z.lt_le_trans with (2 ^ (8 * (i + 1))); [nia |]. apply Z.pow_le_mono_r; lia. }
  assert (E : Z.lor (wrapu 64 (Z.shiftl (wrapu 64 c) (i * 8))) acc = c * 2 ^ (8 * i) + acc).
  { unfold wrapu. rewrite (Z.mod_small c) by lia. rewrite Z.shiftl_mul_pow2 by lia. rewrite (Z.mul_comm i 8). rewrite Z.mod_small by nia. apply lor_add; lia. }
  rewrite E, IH; [| exact F' | lia | lia | nia]. rewrite P. lia.
Qed.
Lemma byte_little : forall s i c, octets s -> nth_error s i = Some c -> byte (little s) (Z.of_nat i) = c.
Proof.
  induction s as [| x s IH]; intros [| i] c F E; try discriminate E; inversion F as [| ? ? Hx F']; subst; cbn [nth_error little] in *.
  - injection E as <-. rewrite byte_0. replace (x + 256 * little s) with (x + little s * 256) by lia. rewrite Z.mod_add by lia. apply Z.mod_small. exact Hx.
  - rewrite Nat2Z.inj_succ, <- Z.add_1_r, byte_succ by lia. replace (x + 256 * little s) with (x + little s * 256) by lia. rewrite Z.div_add by lia. rewrite Z.div_small by exact Hx. cbn [Z.add]. apply IH; assumption.
Qed.
Lemma skipn_plus {A} : forall a b (s : list A), skipn b (skipn a s) = skipn (a + b) s.
Proof. induction a as [| a IH]; intros b [| x s]; cbn; auto. apply skipn_nil. Qed.
Lemma octets_skipn s : forall n, octets s -> octets (skipn n s).
Proof. induction s as [| x s IH]; intros [| n] F; cbn; auto. apply IH. now inversion F. Qed.
Lemma octets_firstn s : forall n, octets s -> octets (firstn n s).
Proof. induction s as [| x s IH]; intros [| n] F; cbn; auto; [constructor |]. inversion F; subst. constructor; auto. apply IH. auto. Qed.

(** * What is in memory afterwards *)
(** [M'] is [M] with the characters of [s] at [a]; at most [n] bytes have changed *)
Definition spelled_at (M : memory) (a n : Z) (s : list Z) (M' : memory) : Prop :=
  regions M' = regions M /\ (forall i c, nth_error s i = Some c -> peek M' (a + Z.of_nat i) = c)
  /\ (forall b, 0 <= b -> b < a \/ a + n <= b -> peek M' b = peek M b).
Lemma written_spelled M a n s M' : 0 <= a -> octets s -> Z.of_nat (length s) <= n -> written M a n (little s) M' -> spelled_at M a n s M'.
Proof.
  intros Ha F Hn (R & W). split; [exact R |]. split.
  - intros i c E. assert (i < length s)%nat by (apply nth_error_Some; congruence). rewrite W by lia.
    replace ((a <=? a + Z.of_nat i) && (a + Z.of_nat i <? a + n)) with true by lia. replace (a + Z.of_nat i - a) with (Z.of_nat i) by lia. now apply byte_little.
  - intros b Hb D. rewrite W by exact Hb. now replace ((a <=? b) && (b <? a + n)) with false by lia.
Qed.
Lemma spelled_accessible M a n s M' b k : spelled_at M a n s M' -> accessible M b k -> accessible M' b k.
Proof. intros (R & _) (H & r & I & B). split; [exact H |]. exists r. now rewrite R. Qed.
Lemma spelled_join M a s M1 n t M2 : 0 <= a -> length s = 8%nat -> 0 <= n -> spelled_at M a 8 s M1 -> spelled_at M1 (a + 8) n t M2 -> spelled_at M a (8 + n) (s ++ t) M2.
Proof.
  intros Ha L8 Hn (R1 & P1 & O1) (R2 & P2 & O2). split; [congruence |]. split.
  - intros i c E. destruct (Nat.lt_ge_cases i 8) as [H | H].
    + rewrite nth_error_app1 in E by lia. rewrite O2 by lia. now apply P1.
    + rewrite nth_error_app2 in E by lia. rewrite L8 in E. replace (a + Z.of_nat i) with (a + 8 + Z.of_nat (i - 8)) by lia. now apply P2.
  - intros b Hb D. rewrite O2 by lia. apply O1; lia.
Qed.
Lemma access_part M a n b k : accessible M a n -> a <= b -> 0 <= k -> b + k <= a + n -> accessible M b k.
Proof. intros (H & r & I & B1 & B2) H1 H2 H3. split; [lia |]. exists r. split; [exact I | lia]. Qed.

(** * The instructions *)
Lemma frame_address e m off a : a = low S8 (rget (regs m) RBP - off) -> address e m (Base_disp RBP (- off)) = Some a.
Proof. intros ->. cbn. do 2 f_equal. Qed.
Lemma run_wide e m off a v t : a = low S8 (rget (regs m) RBP - off) -> 0 <= v < 2 ^ 64 -> accessible (X64Isa.mem m) a 8 -> In t [IULong; IULongLong] ->
  exists m', runs e [X64_INST X64_INST_MOVABSX (Some (new_unsigned_int_x64ope X64_SUFFIX_QUAD t v)) (Some (X64_OPERAND_REG X64_SUFFIX_QUAD R10_REG_ID));
       X64_INST X64_INST_MOVX (Some (X64_OPERAND_REG X64_SUFFIX_QUAD R10_REG_ID)) (Some (X64_OPERAND_MEM off))] m (Next m')
    /\ written (X64Isa.mem m) a 8 v (X64Isa.mem m') /\ (forall q, q <> R10 -> rget (regs m') q = rget (regs m) q).
Proof.
  intros Ea Hv Ac It. set (m1 := set_regs m (put (regs m) S8 R10 v)).
  assert (R1 : runs e [X64_INST X64_INST_MOVABSX (Some (new_unsigned_int_x64ope X64_SUFFIX_QUAD t v)) (Some (X64_OPERAND_REG X64_SUFFIX_QUAD R10_REG_ID))] m (Next m1)).
  { apply (runs_one e _ _ _ (Movabs v R10)). unfold new_unsigned_int_x64ope. cbn [decode].
    assert (lit_value (mkil t 0 v) = v) as LV by (destruct It as [<- | [<- | []]]; reflexivity).
    destruct It as [<- | [<- | []]]; cbn; unfold imm64_fits; cbn [lit_value iliteral_isunsigned itype uval]; (destruct ((- 2 ^ 63 <=? v) && (v <? 2 ^ 64)) eqn:Q; [| lia]); reflexivity. }
  assert (O : forall q, q <> R10 -> rget (regs m1) q = rget (regs m) q) by (intros q Hq; destruct q; try reflexivity; congruence).
  destruct (run_store e X64_SUFFIX_QUAD S8 (X64_OPERAND_REG X64_SUFFIX_QUAD R10_REG_ID) (X64_OPERAND_MEM off) m1 (Reg R10) (Base_disp RBP (- off)) a v) as (M' & R2 & W); auto; try discriminate.
  - eexists. split; [apply read_reg |]. unfold get. rewrite low_low. cbn. apply low_low.
  - apply frame_address. rewrite O by discriminate. exact Ea.
  - exists (set_mem m1 M'). split; [change [?x; ?y] with ([x] ++ [y]); eapply runs_app; eassumption |]. split; [exact W | exact O].
Qed.
Lemma run_narrow e m off a v sf z : size_of sf = Some z -> In z [S1; S2; S4] -> a = low S8 (rget (regs m) RBP - off) -> 0 <= v < 2 ^ (8 * size_bytes z) -> accessible (X64Isa.mem m) a (size_bytes z) ->
  exists m', runs e [X64_INST X64_INST_MOVX (Some (new_unsigned_int_x64ope sf IUInt v)) (Some (X64_OPERAND_MEM off))] m (Next m')
    /\ written (X64Isa.mem m) a (size_bytes z) v (X64Isa.mem m') /\ (forall q, q <> R10 -> rget (regs m') q = rget (regs m) q).
Proof.
  intros Sf Iz Ea Hv Ac.
  destruct (run_store e sf z (new_unsigned_int_x64ope sf IUInt v) (X64_OPERAND_MEM off) m (Imm v) (Base_disp RBP (- off)) a v) as (M' & R & W); auto; try discriminate.
  - unfold new_unsigned_int_x64ope. cbn [operand]. assert (imm_fits z v = true) as Fi.
    { destruct Iz as [<- | [<- | [<- | []]]]; unfold imm_fits; cbn in Hv |- *; lia. }
    change (lit_value _) with v. now rewrite Fi.
  - eexists. split; [reflexivity |]. apply low_low.
  - now apply frame_address.
  - exists (set_mem m M'). auto.
Qed.

(** * Strings *)
Lemma rest_correct e m off a s n : octets s -> (length s < 8)%nat -> 0 <= n -> n mod 4 = 0 -> Z.of_nat (length s) <= n -> a = low S8 (rget (regs m) RBP - off) -> accessible (X64Isa.mem m) a n ->
  exists m', runs e (str_rest s off R10_REG_ID) m (Next m') /\ spelled_at (X64Isa.mem m) a n s (X64Isa.mem m') /\ (forall q, q <> R10 -> rget (regs m') q = rget (regs m) q).
Proof.
  intros F H8 Hn N4 Ln Ea Ac. pose proof (little_range s F) as LR. assert (A0 : 0 <= a) by (destruct Ac; assumption).
  assert (V : str_unit s 0 0 = little s) by (rewrite unit_little; [cbn; lia | exact F | lia | lia | cbn; lia]).
  assert (G : forall k m', Z.of_nat (length s) <= k <= n -> written (X64Isa.mem m) a k (little s) (X64Isa.mem m') -> spelled_at (X64Isa.mem m) a n s (X64Isa.mem m')).
  { intros k m' Hk W. destruct (written_spelled _ _ _ _ _ A0 F (proj1 Hk) W) as (R & P & O). split; [exact R |]. split; [exact P |]. intros b Hb D. apply O; lia. }
  assert (PW : forall k, Z.of_nat (length s) <= k -> 0 <= little s < 2 ^ (8 * k)) by (intros k Hk; split; [lia |]; apply Z.lt_le_trans with (2 ^ (8 * Z.of_nat (length s))); [lia | apply Z.pow_le_mono_r; lia]).
  unfold str_rest. rewrite V.
  destruct (Z.of_nat (length s) =? 0) eqn:B0.
  { exists m. split; [apply runs_nil |]. split; [| auto]. destruct s; [| cbn in B0; lia]. split; [reflexivity |]. split; [intros [] c E; discriminate E | auto]. }
  assert (N4' : 4 <= n) by lia.
  destruct (Z.of_nat (length s) <=? 1) eqn:B1.
  { destruct (run_narrow e m off a (little s) X64_SUFFIX_BYTE S1 eq_refl) as (m' & R & W & O); [cbn; tauto | exact Ea | apply PW; cbn; lia | eapply access_part; [exact Ac | lia | cbn; lia | cbn; lia] |].
    exists m'. split; [exact R |]. split; [| exact O]. apply (G (size_bytes S1)); [cbn; lia | exact W]. }
  destruct (Z.of_nat (length s) <=? 2) eqn:B2.
  { destruct (run_narrow e m off a (little s) X64_SUFFIX_WORD S2 eq_refl) as (m' & R & W & O); [cbn; tauto | exact Ea | apply PW; cbn; lia | eapply access_part; [exact Ac | lia | cbn; lia | cbn; lia] |].
    exists m'. split; [exact R |]. split; [| exact O]. apply (G (size_bytes S2)); [cbn; lia | exact W]. }
  destruct (Z.of_nat (length s) <=? 4) eqn:B4.
  { destruct (run_narrow e m off a (little s) X64_SUFFIX_LONG S4 eq_refl) as (m' & R & W & O); [cbn; tauto | exact Ea | apply PW; cbn; lia | eapply access_part; [exact Ac | lia | cbn; lia | cbn; lia] |].
    exists m'. split; [exact R |]. split; [| exact O]. apply (G (size_bytes S4)); [cbn; lia | exact W]. }
  assert (8 <= n) by (destruct (Z.eq_dec n 4); [lia |]; pose proof (Z.div_mod n 4); lia).
  destruct (run_wide e m off a (little s) IULong Ea) as (m' & R & W & O); [pose proof (PW 8); cbn in *; lia | eapply access_part; [exact Ac | lia..] | cbn; tauto |].
  exists m'. split; [exact R |]. split; [| exact O]. apply (G 8); [lia | exact W].
Qed.
Lemma units_correct e : forall k s off m a n, octets s -> (8 * k <= length s)%nat -> (length s < 8 * k + 8)%nat -> n mod 4 = 0 -> Z.of_nat (length s) <= n -> a = low S8 (rget (regs m) RBP - off) -> a + n < 2 ^ 64 ->
  accessible (X64Isa.mem m) a n ->
  exists m', runs e (str_units k s off R10_REG_ID ++ str_rest (skipn (8 * k) s) (off - 8 * Z.of_nat k) R10_REG_ID) m (Next m') /\ spelled_at (X64Isa.mem m) a n s (X64Isa.mem m')
    /\ (forall q, q <> R10 -> rget (regs m') q = rget (regs m) q).
Proof.
  induction k as [| k IH]; intros s off m a n F H1 H2 N4 Ln Ea Hi Ac.
  - cbn [str_units app Nat.mul skipn]. replace (off - 8 * Z.of_nat 0) with off by lia. apply rest_correct; auto; lia.
  - assert (A0 : 0 <= a) by (destruct Ac; assumption).
    assert (L8 : length (firstn 8 s) = 8%nat) by (rewrite firstn_length; lia). assert (F8 := octets_firstn s 8 F). pose proof (little_range _ F8) as LR. rewrite L8 in LR.
    assert (V : str_unit (firstn 8 s) 0 0 = little (firstn 8 s)) by (rewrite unit_little; [cbn; lia | exact F8 | lia | lia | cbn; lia]).
    destruct (run_wide e m off a (little (firstn 8 s)) IULongLong Ea) as (m1 & R1 & W1 & O1); [cbn in LR |- *; lia | eapply access_part; [exact Ac | lia..] | cbn; tauto |].
    apply written_spelled in W1; [| exact A0 | exact F8 | lia].
    destruct (IH (skipn 8 s) (off - 8) m1 (a + 8) (n - 8)) as (m2 & R2 & W2 & O2).
    + now apply octets_skipn.
    + rewrite skipn_length. lia.
    + rewrite skipn_length. lia.
    + rewrite Zminus_mod, N4. reflexivity.
    + rewrite skipn_length. lia.
    + rewrite O1 by discriminate. rewrite Ea. unfold low. change (nbits S8) with 64. unfold low in Ea. change (nbits S8) with 64 in Ea. rewrite <- (Z.mod_small ((rget (regs m) RBP - off) mod 2 ^ 64 + 8) (2 ^ 64)).
      * rewrite Zplus_mod_idemp_l. f_equal. lia.
      * rewrite <- Ea. lia.
    + lia.
    + eapply spelled_accessible; [exact W1 |]. eapply access_part; [exact Ac | lia..].
    + exists m2. split; [| split].
      * cbn [str_units]. rewrite V. rewrite <- app_assoc. eapply runs_app; [exact R1 |].
        replace (skipn (8 * S k) s) with (skipn (8 * k) (skipn 8 s)) by (rewrite skipn_plus; apply (f_equal (fun j => skipn j s)); lia). replace (off - 8 * Z.of_nat (S k)) with (off - 8 - 8 * Z.of_nat k) by lia. exact R2.
      * rewrite <- (firstn_skipn 8 s). replace n with (8 + (n - 8)) by lia. eapply spelled_join; [exact A0 | exact L8 | lia | exact W1 | exact W2].
      * intros q Hq. rewrite O2, O1 by exact Hq. reflexivity.
Qed.
(** the characters of a string, stored in the frame; the last store may be up to the next multiple of four bytes *)
Theorem string_correct off s st cs st' e m a n :
  gen_inst_x64code (IMMC_INST IMMC_INST_STR (Some (IMMC_OPERAND_MEM off)) (Some (IMMC_OPERAND_STR s)) None) st = Ok (cs, st') ->
  Forall (fun c => 0 <= c < 256) s -> n mod 4 = 0 -> Z.of_nat (length s) <= n ->
  location e m (IMMC_OPERAND_MEM off) = Some a -> a + n < 2 ^ 64 -> accessible (X64Isa.mem m) a n ->
  exists m', runs e cs m (Next m') /\ regions (X64Isa.mem m') = regions (X64Isa.mem m)
    /\ (forall i c, nth_error s i = Some c -> peek (X64Isa.mem m') (a + Z.of_nat i) = c)
    /\ (forall b, 0 <= b -> b < a \/ a + n <= b -> peek (X64Isa.mem m') b = peek (X64Isa.mem m) b)
    /\ (forall q, q <> R10 -> rget (regs m') q = rget (regs m) q).
Proof.
  cbn [gen_inst_x64code]. intros H F N4 Ln Lo Hi Ac. unfold gen_str in H. change (CALLER (NUM_CALLER_SAVED_REGS - 2)) with (Ok R10_REG_ID) in H. cbn [deref bind ope_sliteral ope_mem] in H. apply finish_ok in H. subst cs.
  cbn [location] in Lo. injection Lo as Lo. pose proof (Nat.div_mod (length s) 8 ltac:(discriminate)). pose proof (Nat.mod_upper_bound (length s) 8 ltac:(discriminate)).
  destruct (units_correct e (Nat.div (length s) 8) s off m a n) as (m' & R & (S1 & S2 & S3) & O); auto; try lia.
  exists m'. auto 6.
Qed.
