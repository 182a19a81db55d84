(** Proofs for C48: entering and leaving a function *)
From Coq Require Import Lia ZifyBool.
From Verif Require Import Base ElabProofs ImmcModel X64Model X64genModel X64Decode OpSpec IsaProofs IsaMemProofs X64genProofs LiteralModel CallSpec CallProofs CallProofs7 CallProofs8 CallProofs9 SimSpec X64Isa.
Local Open Scope Z_scope.

Lemma runs_both e a b m m1 o : OpSpec.runs e a m (Next m1) -> OpSpec.runs e b m1 o -> OpSpec.runs e (a ++ b) m o.
Proof. apply IsaProofs.runs_app. Qed.
Lemma runs_none e m : runs e [] m (Next m).
Proof. exists []. split; reflexivity. Qed.
Lemma byte_bytes v i : 0 <= byte v i < 256.
Proof. unfold byte. apply Z.mod_pos_bound. lia. Qed.
Lemma written_bytes M a n v M' : written M a n v M' -> byte_memory M -> byte_memory M'.
Proof. intros (_ & W) B b P. rewrite W by exact P. destruct (_ && _); [apply byte_bytes | now apply B]. Qed.
Lemma push_goes e r m : 8 <= rget (regs m) RSP < 2 ^ 64 -> accessible (mem m) (rget (regs m) RSP - 8) 8 ->
  exists m', runs e [X64_INST X64_INST_PUSHX (quad r) None] m (Next m') /\ regions (mem m') = regions (mem m) /\ (byte_memory (mem m) -> byte_memory (mem m')).
Proof.
  intros B AC. destruct (store_written _ S8 _ (get (regs m) S8 (reg_of r)) AC) as (M' & ST & W).
  eexists. split.
  - exists [Push (Reg (reg_of r))]. split; [reflexivity |]. cbn [exec_list exec read]. unfold push. change (rsp (regs m)) with (rget (regs m) RSP). rewrite (low_small S8) by (change (2 ^ nbits S8) with (2 ^ 64); lia). rewrite ST. reflexivity.
  - cbn [mem]. split; [apply W | eapply written_bytes, W].
Qed.
Lemma small_fits v : 0 <= v < 2 ^ 31 -> imm_fits S8 v = true.
Proof.
  intros H. assert (W : wraps 64 v = v) by (unfold wraps; rewrite (Z.mod_small v) by lia; change (2 ^ (64 - 1)) with (2 ^ 63); destruct (_ <? _) eqn:E; lia). unfold imm_fits. rewrite W. lia.
Qed.
Lemma shift_goes e t v m : (t = X64_INST_SUBX \/ t = X64_INST_ADDX) -> imm_fits S8 v = true -> exists m', runs e [X64_INST t (number v) (quad SP_REG_ID)] m (Next m').
Proof.
  intros T I. assert (I' : imm_fits S8 (lit_value (mkil IInt v 0)) = true) by exact I. destruct T as [-> | ->]; eexists; eexists; (split; [unfold insns, number, quad; cbn -[imm_fits lit_value]; rewrite I'; reflexivity | reflexivity]).
Qed.
Lemma pushes_go e : forall rs m, 8 * Z.of_nat (length rs) <= rget (regs m) RSP < 2 ^ 64 -> (forall j, (j < length rs)%nat -> accessible (mem m) (rget (regs m) RSP - 8 * Z.of_nat (S j)) 8) ->
  exists m', runs e (List.map (fun r => X64_INST X64_INST_PUSHX (quad r) None) rs) m (Next m') /\ regions (mem m') = regions (mem m) /\ (byte_memory (mem m) -> byte_memory (mem m')).
Proof.
  induction rs as [| r rs IH]; intros m B AC; [exists m; split; [apply runs_none | auto] |]. cbn [length] in *. destruct (push_goes e r m) as (m1 & R1 & G1 & B1); [lia | apply (AC 0%nat); lia |].
  destruct (push_facts _ _ _ _ R1 ltac:(lia)) as (P1 & _ & _ & _ & P5). destruct (IH m1) as (m2 & R2 & G2 & B2).
  - lia.
  - intros j J. apply P5. rewrite P1. replace (rget (regs m) RSP - 8 - 8 * Z.of_nat (S j)) with (rget (regs m) RSP - 8 * Z.of_nat (S (S j))) by lia. apply AC. lia.
  - exists m2. split; [apply (runs_both e [_] _ m m1); assumption |]. split; [congruence | auto].
Qed.
Lemma prologue_goes e size saved m0 : frame_depth size saved <= rget (regs m0) RSP < 2 ^ 64 -> ~ In SP_REG_ID saved -> size < 2 ^ 31 -> room (mem m0) (rget (regs m0) RSP) size saved ->
  exists m1, runs e (prologue size saved) m0 (Next m1) /\ regions (mem m1) = regions (mem m0) /\ (byte_memory (mem m0) -> byte_memory (mem m1))
    /\ forall a, 0 <= a -> ~ saved_area (rget (regs m0) RSP) size saved a -> peek (mem m1) a = peek (mem m0) a.
Proof.
  intros B NS SZ (AC & AS). set (S0 := rget (regs m0) RSP) in *. assert (FD : 8 + Z.max 0 size + 8 * Z.of_nat (length saved) <= frame_depth size saved) by (unfold frame_depth; destruct (Nat.odd _); lia).
  destruct (push_goes e BP_REG_ID m0) as (ma & R1 & G1 & B1); [fold S0; lia | exact AC |]. destruct (push_facts _ _ _ _ R1 ltac:(fold S0; lia)) as (A1 & A2 & A3 & A4 & A5). fold S0 in A1, A3, A4.
  set (mb := set_regs ma (X64Isa.put (regs ma) S8 RBP (get (regs ma) S8 RSP))). assert (R2 : runs e [X64_INST X64_INST_MOVX (quad SP_REG_ID) (quad BP_REG_ID)] ma (Next mb)) by (eexists; split; reflexivity).
  assert (Bs : rget (regs mb) RSP = S0 - 8) by (unfold mb; cbn [regs set_regs]; rewrite rget_put_other by discriminate; exact A1).
  assert (exists mc, runs e (if size >? 0 then [X64_INST X64_INST_SUBX (number size) (quad SP_REG_ID)] else []) mb (Next mc) /\ rget (regs mc) RSP = S0 - 8 - Z.max 0 size /\ mem mc = mem ma) as (mc & R3 & C1 & C3).
  { destruct (size >? 0) eqn:G; [| exists mb; split; [apply runs_none |]; split; [lia | reflexivity]]. destruct (shift_goes e X64_INST_SUBX size mb (or_introl eq_refl)) as (mc & R); [apply small_fits; lia |]. exists mc. split; [exact R |].
    destruct (shift_facts _ _ _ _ _ (or_introl eq_refl) R) as (X1 & _ & X3). split; [| exact X3]. rewrite X1, Bs, low_small; [lia |]. change (2 ^ nbits S8) with (2 ^ 64). lia. }
  destruct (pushes_go e saved mc) as (md & R4 & G4 & B4).
  { rewrite C1. lia. } { intros j J. rewrite C1, C3. apply A5. now apply AS. }
  destruct (pushes_run e saved mc md R4 ltac:(rewrite C1; lia) NS) as (D1 & _ & _ & D4 & _). rewrite C1 in D1, D4.
  assert (exists m1, runs e (if Nat.odd (length saved) then [X64_INST X64_INST_SUBX (number 8) (quad SP_REG_ID)] else []) md (Next m1) /\ mem m1 = mem md) as (m1 & R5 & E5).
  { destruct (Nat.odd (length saved)); [| exists md; split; [apply runs_none | reflexivity]]. destruct (shift_goes e X64_INST_SUBX 8 md (or_introl eq_refl) eq_refl) as (m1 & R). exists m1. split; [exact R | apply (shift_facts _ _ _ _ _ (or_introl eq_refl) R)]. }
  exists m1. split; [| split; [| split]].
  - unfold prologue. eapply runs_both; [| eapply runs_both; [exact R3 | eapply runs_both; [exact R4 | exact R5]]]. apply (runs_both e [_] [_] m0 ma); assumption.
  - rewrite E5, G4, C3. exact G1.
  - intros BM. rewrite E5. apply B4. rewrite C3. auto.
  - intros a P N. rewrite E5. unfold saved_area in N. rewrite D4 by lia. rewrite C3. apply A4; lia.
Qed.
Lemma epilogue_goes e size saved S0 (old : xreg -> Z) bp m2 : rget (regs m2) RSP = S0 - frame_depth size saved -> frame_depth size saved <= S0 < 2 ^ 64 - 8 -> ~ In SP_REG_ID saved -> NoDup saved -> size < 2 ^ 31 -> byte_memory (mem m2) ->
  room (mem m2) S0 size saved -> holds (mem m2) (S0 - 8) 8 bp -> (forall j r, nth_error saved j = Some r -> holds (mem m2) (S0 - 8 - Z.max 0 size - 8 * Z.of_nat (S j)) 8 (old r)) ->
  exists l m, epilogue size saved = l ++ [X64_INST X64_INST_RET None None] /\ runs e l m2 (Next m) /\ mem m = mem m2 /\ rget (regs m) RSP = S0
    /\ rget (regs m) RBP = bp /\ (forall r, In r saved -> r <> BP_REG_ID -> rget (regs m) (reg_of r) = old r)
    /\ (forall q, q <> RSP -> q <> RBP -> ~ In q (List.map reg_of saved) -> rget (regs m) q = rget (regs m2) q).
Proof.
  intros SP B NS ND SZ BM (AC & AS) HB HS. assert (FD : 8 + Z.max 0 size + 8 * Z.of_nat (length saved) <= frame_depth size saved) by (unfold frame_depth; destruct (Nat.odd _); lia).
  assert (exists ma, runs e (if Nat.odd (length saved) then [X64_INST X64_INST_ADDX (number 8) (quad SP_REG_ID)] else []) m2 (Next ma) /\ rget (regs ma) RSP = S0 - 8 - Z.max 0 size - 8 * Z.of_nat (length saved) /\ mem ma = mem m2 /\ (forall q, q <> RSP -> rget (regs ma) q = rget (regs m2) q)) as (ma & R1 & A1 & A2 & A3).
  { unfold frame_depth in *. destruct (Nat.odd (length saved)); [| exists m2; split; [apply runs_none |]; split; [lia | auto]]. destruct (shift_goes e X64_INST_ADDX 8 m2 (or_intror eq_refl) eq_refl) as (ma & R). exists ma. split; [exact R |].
    destruct (shift_facts _ _ _ _ _ (or_intror eq_refl) R) as (X1 & X2 & X3). split; [| auto]. rewrite X1, SP, low_small; [lia |]. change (2 ^ nbits S8) with (2 ^ 64). lia. }
  destruct (pops_run e (rev saved) (rev (List.map old saved)) ma) as (mb & R2 & P1 & P2 & P3 & P4).
  { now apply NoDup_rev. } { rewrite <- in_rev. exact NS. } { now rewrite A2. } { rewrite !rev_length, map_length. lia. } { rewrite A1. lia. } { rewrite A1, rev_length, map_length. lia. }
  { intros j v J. assert (LJ : (j < length saved)%nat) by (rewrite <- (map_length old), <- rev_length; apply nth_error_Some; rewrite J; discriminate). rewrite nth_rev in J by (now rewrite map_length). rewrite map_length, nth_error_map in J. destruct (nth_error saved (length saved - S j)) as [r |] eqn:RJ; [| discriminate J]. injection J as <-.
    rewrite A1, A2. replace (S0 - 8 - Z.max 0 size - 8 * Z.of_nat (length saved) + 8 * Z.of_nat j) with (S0 - 8 - Z.max 0 size - 8 * Z.of_nat (S (length saved - S j))) by lia. split; [apply AS; lia | now apply HS]. }
  rewrite A1, rev_length in P2.
  assert (exists mc, runs e (if size >? 0 then [X64_INST X64_INST_ADDX (number size) (quad SP_REG_ID)] else []) mb (Next mc) /\ rget (regs mc) RSP = S0 - 8 /\ mem mc = mem mb /\ (forall q, q <> RSP -> rget (regs mc) q = rget (regs mb) q)) as (mc & R3 & C1 & C2 & C3).
  { destruct (size >? 0) eqn:G; [| exists mb; split; [apply runs_none |]; split; [lia | auto]]. destruct (shift_goes e X64_INST_ADDX size mb (or_intror eq_refl)) as (mc & R); [apply small_fits; lia |]. exists mc. split; [exact R |].
    destruct (shift_facts _ _ _ _ _ (or_intror eq_refl) R) as (X1 & X2 & X3). split; [| auto]. rewrite X1, P2, low_small; [lia |]. change (2 ^ nbits S8) with (2 ^ 64). lia. }
  destruct (pops_run e [BP_REG_ID] [bp] mc) as (m & R4 & D1 & D2 & D3 & D4).
  { repeat constructor. intros []. } { intros [X | []]. discriminate X. } { now rewrite C2, P1, A2. } { cbn. lia. } { rewrite C1. lia. } { rewrite C1. cbn. lia. }
  { intros [| j] v J; [| destruct j; discriminate J]. injection J as <-. rewrite C1, C2, P1, A2. rewrite Z.mul_0_r, Z.add_0_r. auto. }
  set (l := (if Nat.odd (length saved) then [X64_INST X64_INST_ADDX (number 8) (quad SP_REG_ID)] else []) ++ List.map (fun r => X64_INST X64_INST_POPX None (quad r)) (rev saved) ++ (if size >? 0 then [X64_INST X64_INST_ADDX (number size) (quad SP_REG_ID)] else []) ++ [X64_INST X64_INST_POPX None (quad BP_REG_ID)]).
  assert (EL : epilogue size saved = l ++ [X64_INST X64_INST_RET None None]) by (unfold epilogue, l; rewrite <- !app_assoc; reflexivity).
  assert (R : runs e l m2 (Next m)) by (unfold l; eapply runs_both; [exact R1 | eapply runs_both; [exact R2 | eapply runs_both; [exact R3 | exact R4]]]).
  exists l, m. split; [exact EL |]. split; [exact R |]. split; [congruence |]. split; [rewrite D2, C1; cbn; lia |].
  destruct (epilogue_run e size saved l S0 old bp m2 m EL R SP B NS ND HB HS) as (Q1 & Q2). split; [exact Q1 |]. split; [exact Q2 |].
  intros q N1 N2 N3. rewrite D4; [| exact N1 | intros [X | []]; now apply N2]. rewrite C3 by exact N1. rewrite P4; [apply A3, N1 | exact N1 |]. rewrite map_rev, <- in_rev. exact N3.
Qed.
