(** The code generated for one instruction does what the instruction means: moves and conversions. *)
From Coq Require Import Lia ZifyBool.
From Verif Require Import Base X64genModel X64Decode X64Isa OpSpec IsaProofs.
Open Scope Z_scope.

Lemma xreg_beq_true a b : xreg_beq a b = true -> a = b.
Proof. destruct a, b; cbn; congruence. Qed.
Lemma xreg_beq_false a b : xreg_beq a b = false -> reg_of a <> reg_of b.
Proof. destruct a, b; cbn; congruence. Qed.
Lemma reg_of_inj a b : reg_of a = reg_of b -> a = b.
Proof. destruct a, b; cbn; congruence. Qed.
Lemma reg_operand_same s ss r : size_of ss = Some s -> reg_operand s (X64_OPERAND_REG ss r) = Some (reg_of r).
Proof. destruct ss, s; cbn; congruence. Qed.

(** moves between registers of the same size *)
Lemma run_mov_reg e ss s a b m : size_of ss = Some s ->
  runs e [X64_INST X64_INST_MOVX (Some (X64_OPERAND_REG ss a)) (Some (X64_OPERAND_REG ss b))] m
       (Next (set_regs m (put (regs m) s (reg_of b) (get (regs m) s (reg_of a))))).
Proof.
  intros H. eapply runs_one with (i := Mov s (Reg (reg_of a)) (Reg (reg_of b))).
  destruct ss, s; cbn in H; try discriminate; reflexivity.
Qed.
Lemma run_mov_imm e ss s i b m : size_of ss = Some s ->
  (match s with S8 => imm64_fits (lit_value i) | _ => imm_fits s (lit_value i) end) = true ->
  runs e [X64_INST X64_INST_MOVX (Some (X64_OPERAND_INT ss i)) (Some (X64_OPERAND_REG ss b))] m
       (Next (set_regs m (put (regs m) s (reg_of b) (low s (lit_value i))))).
Proof.
  intros H F. eapply runs_one with (i := Mov s (Imm (lit_value i)) (Reg (reg_of b))).
  destruct ss, s; cbn in H; try discriminate;
    cbn [decode mnemonic_size one_suffix suffix_bearing size_of decode_mov reg_operand size_eqb operand]; cbv beta iota in F |- *;
    rewrite F; reflexivity.
Qed.

(** the conversion code of util.c *)
Definition uses_ax (u : bool) (s d : size) : bool := match u, s, d with false, S4, S8 => true | _, _, _ => false end.
Definition no_unsigned_4_to_8 (u : bool) (s d : size) : Prop := ~ (u = true /\ s = S4 /\ d = S8).

Lemma append_mov_runs e ss s sr ds d dr u m :
  size_of ss = Some s -> size_of ds = Some d -> no_unsigned_4_to_8 u s d ->
  exists m', runs e (append_mov_code ss sr ds dr u) m (Next m')
    /\ mem m' = mem m /\ fl m' = fl m
    /\ low d (rget (regs m') (reg_of dr)) = low d (interp u s (rget (regs m) (reg_of sr)))
    /\ (forall q, q <> reg_of dr -> (uses_ax u s d = true -> q <> RAX) -> rget (regs m') q = rget (regs m) q)
    /\ (sr = dr -> nbits d <= nbits s -> m' = m)
    /\ (sr <> dr \/ nbits s < nbits d -> d = S4 -> 0 <= rget (regs m') (reg_of dr) < 2 ^ 32).
Proof.
  intros Hs Hd Hu.
  assert (forall (z : size) (a : reg), nbits d <= nbits z -> low d (get (regs m) z a) = low d (rget (regs m) a)) as Lget
    by (intros z a L; unfold get; apply low_low_le, L).
  destruct (xsuffix_num ss >=? xsuffix_num ds) eqn:C.
  - assert (nbits d <= nbits s) as Hle by (destruct ss, ds; cbn in Hs, Hd, C; inversion Hs; inversion Hd; subst; cbn; try lia; discriminate).
    unfold append_mov_code. rewrite C. unfold append_mov_code_simple.
    destruct (xreg_beq sr dr) eqn:E.
    + apply xreg_beq_true in E. subst dr. exists m. split; [apply runs_nil |].
      repeat split; auto.
      * rewrite low_interp_le by exact Hle. reflexivity.
      * destruct H as [H | H]; [congruence | lia].
      * destruct H as [H | H]; [congruence | lia].
    + pose proof (xreg_beq_false _ _ E) as Hne.
      eexists. split; [apply (run_mov_reg e ds d); exact Hd |].
      repeat split; cbn [regs set_regs].
      * rewrite low_put by lia. rewrite low_interp_le by exact Hle. apply low_low.
      * intros q Hq _. apply rget_put_other, Hq.
      * intros ->. congruence.
      * subst d. rewrite rget_put4. apply (low_range S4).
      * subst d. rewrite rget_put4. apply (low_range S4).
  - assert (nbits s < nbits d) as Hlt by (destruct ss, ds; cbn in Hs, Hd, C; inversion Hs; inversion Hd; subst; cbn; try lia; discriminate).
    unfold append_mov_code. rewrite C. destruct u.
    + assert (s = S1 \/ s = S2) as Hss.
      { destruct s, d; cbn in Hlt; auto; try lia. exfalso. apply Hu. auto. }
      assert (append_mov_code_unsigned ss sr ds dr =
              [X64_INST X64_INST_MOVZXX (Some (X64_OPERAND_REG ss sr)) (Some (X64_OPERAND_REG ds dr))]) as ->.
      { destruct Hss; subst s; destruct ss; try discriminate; reflexivity. }
      eexists. split.
      { eapply runs_one with (i := Movzx s d (reg_of sr) (reg_of dr)).
        destruct Hss; subst s; destruct ss, ds, d; cbn in Hs, Hd, Hlt; try discriminate; try lia; reflexivity. }
      repeat split; cbn [regs set_regs].
      * rewrite low_put by lia. reflexivity.
      * intros q Hq _. apply rget_put_other, Hq.
      * lia.
      * subst d. rewrite rget_put4. apply (low_range S4).
      * subst d. rewrite rget_put4. apply (low_range S4).
    + destruct (match s with S1 | S2 => true | _ => false end) eqn:Hss.
      * assert (append_mov_code_signed ss sr ds dr =
                [X64_INST X64_INST_MOVSXX (Some (X64_OPERAND_REG ss sr)) (Some (X64_OPERAND_REG ds dr))]) as ->.
        { destruct s; try discriminate; destruct ss; try discriminate; reflexivity. }
        eexists. split.
        { eapply runs_one with (i := Movsx s d (reg_of sr) (reg_of dr)).
          destruct s; try discriminate; destruct ss, ds, d; cbn in Hs, Hd, Hlt; try discriminate; try lia; reflexivity. }
        repeat split; cbn [regs set_regs].
        -- rewrite low_put by lia. unfold get. rewrite signed_low. reflexivity.
        -- intros q Hq _. apply rget_put_other, Hq.
        -- lia.
        -- subst d. rewrite rget_put4. apply (low_range S4).
        -- subst d. rewrite rget_put4. apply (low_range S4).
      * assert (s = S4 /\ d = S8) as [-> ->] by (destruct s, d; cbn in Hlt; try discriminate; try lia; auto).
        assert (ss = X64_SUFFIX_LONG) as -> by (destruct ss; cbn in Hs; congruence).
        assert (ds = X64_SUFFIX_QUAD) as -> by (destruct ds; cbn in Hd; congruence).
        unfold append_mov_code_signed.
        (* into the accumulator *)
        assert (exists m1, runs e (if xreg_beq sr AX_REG_ID then []
                  else [X64_INST X64_INST_MOVX (Some (X64_OPERAND_REG X64_SUFFIX_LONG sr)) (Some (X64_OPERAND_REG X64_SUFFIX_LONG AX_REG_ID))]) m (Next m1)
                /\ mem m1 = mem m /\ fl m1 = fl m
                /\ low S4 (rget (regs m1) RAX) = low S4 (rget (regs m) (reg_of sr))
                /\ forall q, q <> RAX -> rget (regs m1) q = rget (regs m) q) as (m1 & R1 & M1 & F1 & V1 & O1).
        { destruct (xreg_beq sr AX_REG_ID) eqn:E.
          - apply xreg_beq_true in E. subst sr. exists m. split; [apply runs_nil |]. auto.
          - eexists. split; [apply (run_mov_reg e X64_SUFFIX_LONG S4); reflexivity |]. cbn [regs set_regs mem fl].
            repeat split; [rewrite low_put by (cbn; lia); apply low_low |].
            intros q Hq. apply rget_put_other, Hq. }
        set (m2 := set_regs m1 (put (regs m1) S8 RAX (signed S4 (get (regs m1) S4 RAX)))).
        assert (runs e [X64_INST X64_INST_CXTX (Some (X64_OPERAND_SUFFIX X64_SUFFIX_LONG)) (Some (X64_OPERAND_SUFFIX X64_SUFFIX_QUAD))] m1 (Next m2)) as R2
          by (apply runs_one with (i := Cltq); reflexivity).
        assert (low S8 (rget (regs m2) RAX) = low S8 (interp false S4 (rget (regs m) (reg_of sr)))) as V2.
        { unfold m2; cbn [regs set_regs]. rewrite rget_put8, low_low. unfold get.
          rewrite V1. rewrite signed_low. reflexivity. }
        assert (forall q, q <> RAX -> rget (regs m2) q = rget (regs m) q) as O2.
        { intros q Hq. unfold m2; cbn [regs set_regs]. rewrite rget_put_other by exact Hq. apply O1, Hq. }
        destruct (xreg_beq dr AX_REG_ID) eqn:E.
        -- apply xreg_beq_true in E. subst dr. exists m2. split.
           { eapply runs_app; [exact R1 |]. rewrite app_nil_r. exact R2. }
           repeat split; auto; try discriminate. cbn; lia.
        -- pose proof (xreg_beq_false _ _ E) as Hne. cbn in Hne.
           eexists. split.
           { eapply runs_app; [exact R1 |]. eapply runs_app; [exact R2 |]. apply (run_mov_reg e X64_SUFFIX_QUAD S8). reflexivity. }
           cbn [regs set_regs mem fl]. repeat split; auto.
           ++ rewrite low_put by lia. cbn [reg_of]. unfold get. rewrite V2. apply low_low.
           ++ intros q Hq Hax. rewrite rget_put_other by exact Hq. apply O2. apply Hax. reflexivity.
           ++ cbn; lia.
           ++ discriminate.
           ++ discriminate.
Qed.

(** * Operands *)
Lemma size_of_suffix o z : suffix_size (ope_suffix o) = Some z -> size_of (xsuffix_of o) = Some z.
Proof. unfold xsuffix_of. destruct (ope_suffix o); cbn; congruence. Qed.
Lemma caller_machine k x : CALLER k = Ok x -> machine_reg k = Some (reg_of x).
Proof.
  unfold CALLER, reg_at. destruct (k <? 0) eqn:E; [discriminate |].
  intros H.
  assert (0 <= k < 8) as Hk.
  { split; [lia |]. destruct (Z_lt_le_dec k 8); [assumption |].
    rewrite (proj2 (nth_error_None CALLER_SAVED_REG_IDS (Z.to_nat k))) in H by (cbn; lia). discriminate. }
  assert (k = 0 \/ k = 1 \/ k = 2 \/ k = 3 \/ k = 4 \/ k = 5 \/ k = 6 \/ k = 7) as D by lia.
  repeat (destruct D as [D | D]; [subst k; cbn in H; injection H as <-; reflexivity |]).
  subst k; cbn in H; injection H as <-; reflexivity.
Qed.
Lemma machine_caller k q : machine_reg k = Some q -> exists x, CALLER k = Ok x /\ reg_of x = q.
Proof.
  unfold machine_reg. intros H.
  destruct k as [| p | p]; try discriminate; [injection H as <-; eexists; split; reflexivity |].
  do 4 (destruct p as [p | p |]; try discriminate; try (injection H as <-; eexists; split; reflexivity)).
Qed.
Lemma machine_reg_not_special k q : machine_reg k = Some q -> q <> RAX /\ q <> RBX /\ q <> RSP /\ q <> RBP.
Proof.
  intros H. apply machine_caller in H as (x & H & <-). unfold CALLER, reg_at in H.
  destruct (k <? 0); [discriminate |]. apply (f_equal (fun r => match r with Ok y => Some y | _ => None end)) in H.
  destruct (nth_error CALLER_SAVED_REG_IDS (Z.to_nat k)) eqn:E; [| discriminate].
  cbn in H. injection H as <-. apply nth_error_In in E. cbn in E.
  repeat (destruct E as [<- | E]; [cbn; repeat split; discriminate |]). contradiction.
Qed.
Lemma greater_larger a b s t : size_of a = Some s -> size_of b = Some t -> size_of (x64suffix_greater a b) = Some (larger s t).
Proof. destruct a, b; cbn; intros H1 H2; try discriminate; injection H1 as <-; injection H2 as <-; reflexivity. Qed.
Lemma larger_l s t : nbits s <= nbits (larger s t).
Proof. destruct s, t; cbn; lia. Qed.
Lemma larger_r s t : nbits t <= nbits (larger s t).
Proof. destruct s, t; cbn; lia. Qed.
Lemma larger_same s : larger s s = s.
Proof. destruct s; reflexivity. Qed.
