(** The code generated for division and remainder. *)
From Coq Require Import Lia ZifyBool.
From Verif Require Import Base X64genModel X64Decode X64Isa OpSpec ISetProofs IsaProofs X64genProofs X64genProofs2.
Open Scope Z_scope.

(** * Which registers are seen as live *)
Lemma alive_regs_spec l : forall i s s', iinv s -> alive_regs l i s = Ok s' ->
  iinv s' /\ (forall x, imem s x -> imem s' x) /\
  (forall k q x, nth_error l k = Some q -> liveseq_isalive q = Ok true -> CALLER (i + Z.of_nat k) = Ok x ->
     imem s' (xreg_num x)).
Proof.
  induction l as [| q l IH]; intros i s s' Hi H; cbn [alive_regs] in H.
  - okinv H. subst s'. split; [exact Hi |]. split; [auto |]. intros k q x Hk. destruct k; discriminate.
  - destruct (CALLER i) as [id | | | |] eqn:Ci; cbn [bind] in H; try discriminate.
    destruct (liveseq_isalive q) as [a | | | |] eqn:Ca; cbn [bind] in H; try discriminate.
    assert (exists s1, iinv s1 /\ alive_regs l (i + 1) s1 = Ok s' /\ (forall x, imem s x -> imem s1 x)
              /\ (a = true -> imem s1 (xreg_num id))) as (s1 & I1 & H1 & S1 & A1).
    { destruct a.
      - destruct (iadd_spec s (xreg_num id) Hi) as (s1 & E & I1 & M1). rewrite E in H. cbn [bind] in H.
        exists s1. split; [exact I1 |]. split; [exact H |]. split; intros; apply M1; auto.
      - cbn [bind] in H. exists s. split; [exact Hi |]. split; [exact H |]. split; [auto | discriminate]. }
    destruct (IH _ _ _ I1 H1) as (I2 & S2 & K2). split; [exact I2 |]. split; [auto |].
    intros k q' x Hk Hq Hx. destruct k as [| k].
    + cbn in Hk. injection Hk as <-. rewrite Z.add_0_r in Hx. apply S2.
      assert (id = x) as <- by congruence. apply A1. congruence.
    + cbn in Hk. apply (K2 k q' x Hk Hq). rewrite <- Hx. f_equal. lia.
Qed.
Lemma dx_evacuated st set b :
  create_alive_regs_set (x_lives st) = Ok set -> icontains set (xreg_num DX_REG_ID) = Ok b ->
  live_after st 1 -> b = true.
Proof.
  intros H C (q & Hq & Ha). destruct (alive_regs_spec _ _ _ _ inew_inv H) as (I & _ & K).
  apply (icontains_ok _ _ _ I C). apply (K 1%nat q DX_REG_ID Hq Ha). reflexivity.
Qed.

Lemma divide_step u s qa b m e r :
  low s (rget (regs m) RAX) = low s qa -> (u = true -> low s (rget (regs m) RDX) = 0) ->
  (u = false -> low s (rget (regs m) RDX) = low s (if signed s qa <? 0 then -1 else 0)) ->
  let x := interp u s qa in let y := interp u s (rget (regs m) b) in
  y <> 0 -> in_range u s (Z.quot x y) = true ->
  r = set_arith m (put (put (regs m) s RAX (Z.quot x y)) s RDX (Z.rem x y)) ->
  exec e (if u then Div s b else Idiv s b) m = Next r.
Proof.
  intros Ha Hu Hs x y Hy Hr ->.
  destruct u; cbn [exec]; unfold get.
  - rewrite (Hu eq_refl), Z.mul_0_l, Z.add_0_l, Ha. cbn [interp] in x, y. fold x y.
    destruct (y =? 0) eqn:E; [lia |].
    pose proof (low_range s qa) as Rx. pose proof (low_range s (rget (regs m) b)) as Ry. fold x in Rx. fold y in Ry.
    rewrite Z.quot_div_nonneg, Z.rem_mod_nonneg by lia. rewrite Z.quot_div_nonneg in Hr by lia.
    cbn [in_range] in Hr. destruct (x / y >=? 2 ^ nbits s) eqn:F; [lia | reflexivity].
  - cbn [interp] in x, y. fold y. rewrite !signed_low in *. fold y.
    destruct (y =? 0) eqn:E; [lia |].
    assert (signed s (rget (regs m) RDX) * 2 ^ nbits s + low s (rget (regs m) RAX) = x) as ->.
    { rewrite Ha, (signed_of_low s _ _ (Hs eq_refl)). unfold x.
      pose proof (low_range s qa). pose proof (pow_half s). pose proof (signed_range s qa). pose proof (pow_pos s).
      destruct (signed s qa <? 0) eqn:G.
      - rewrite signed_small by (destruct s; cbn; lia). destruct (signed_eq s qa); lia.
      - rewrite signed_small by (destruct s; cbn; lia). destruct (signed_eq s qa); lia. }
    cbn [in_range] in Hr.
    destruct ((x ÷ y >=? 2 ^ (nbits s - 1)) || (x ÷ y <? - 2 ^ (nbits s - 1))) eqn:F; [lia | reflexivity].
Qed.

Definition is_dx (o : ope) : Prop := operand_reg o = Some RDX.

Lemma division_correct t d f g st cs st' e m s vf vg r :
  In t [IMMC_INST_DIV; IMMC_INST_MOD] ->
  gen_inst_x64code (IMMC_INST t (Some d) (Some f) (Some g)) st = Ok (cs, st') ->
  sources f g s -> destination d s -> s <> S1 -> accumulator_free f g -> loadable g s ->
  ~ (is_dx f /\ is_dx g) ->
  value m f = Some vf -> value m g = Some vg ->
  binop t (operand_unsigned d) s vf vg = Some r ->
  exists m', runs e cs m (Next m') /\ value m' d = result_in d s r
    /\ changes_only (RAX :: RDX :: RBX :: (if operand_reg g then [] else [R10]) ++ regs_of [d; f; g]) m m'
    /\ (~ In (operand_reg g) [None; Some RDX; operand_reg d; operand_reg f] -> value m' g = value m g)
    /\ (live_after st 1 -> ~ is_dx d -> ~ is_dx f -> get (regs m') S8 RDX = get (regs m) S8 RDX)
    /\ (rget (regs m') RBX = rget (regs m) RBX \/ 1 <= x_evac st').
Proof.
  intros Ht H (Rf & Rg & Hc & Wf & Wg & En & Same) (Rd & Wd) NS1 Hfree Ld NDX Vf Vg Hr.
  assert (exists result, gen_inst_x64code (IMMC_INST t (Some d) (Some f) (Some g)) st = gen_divisional result (Some d) (Some f) (Some g) st
          /\ ((t = IMMC_INST_DIV /\ result = AX_REG_ID) \/ (t = IMMC_INST_MOD /\ result = DX_REG_ID))) as (result & E & Hres).
  { destruct Ht as [<- | [<- | []]]; eexists; split; try reflexivity; auto. }
  rewrite E in H. clear E. unfold gen_divisional in H. cbn [deref bind] in H.
  destruct d as [| sd rd | | | | |]; try contradiction. clear Rd.
  unfold ope_real in H at 1. cbn [ope_reg deref bind] in H.
  destruct (CALLER (reg_id rd)) as [xd | | | |] eqn:Cd; cbn [bind] in H; try discriminate.
  pose proof (caller_machine _ _ Cd) as Md.
  destruct f as [| sf rf | | | | |]; try contradiction.
  unfold ope_real in H at 1. cbn [ope_reg deref bind] in H.
  destruct (CALLER (reg_id rf)) as [xf | | | |] eqn:Cf; cbn [bind] in H; try discriminate.
  pose proof (caller_machine _ _ Cf) as Mf.
  unfold ope_unsigned in H at 1. cbn [ope_reg deref bind] in H.
  cbn [operand_unsigned operand_size] in *.
  unfold common in Hc. cbn [operand_size] in Hc.
  destruct (suffix_size sd) as [zd |] eqn:Zd; [| contradiction].
  destruct (suffix_size sf) as [zf |] eqn:Zf; [| discriminate].
  destruct (operand_size g) as [zg |] eqn:Zg; [| discriminate]. injection Hc as <-.
  cbn [value] in Vf. rewrite Zf, Mf in Vf. injection Vf as <-.
  unfold widens_operand in Wf, Wg. cbn [operand_size] in Wf. rewrite Zf in Wf.
  pose proof (size_of_suffix (IMMC_OPERAND_REG sf rf) zf Zf) as Sf.
  assert (size_of (xsuffix_of g) = Some zg) as Sg.
  { apply size_of_suffix. destruct g; try contradiction; exact Zg. }
  pose proof (greater_larger _ _ _ _ Sf Sg) as Ss.
  set (s := larger zf zg) in *. set (xs := x64suffix_greater (xsuffix_of (IMMC_OPERAND_REG sf rf)) (xsuffix_of g)) in *.
  pose proof (larger_l zf zg : nbits zf <= nbits s) as Lf. pose proof (larger_r zf zg : nbits zg <= nbits s) as Lg.
  destruct (append_mov_runs e _ zf xf _ s AX_REG_ID (reg_unsigned rf) m Sf Ss Wf) as (m1 & R1 & M1 & _ & V1 & O1 & _).
  cbn [reg_of] in V1, O1.
  pose proof (machine_reg_not_special _ _ Mf) as (NFA & NFB & _).
  pose proof (machine_reg_not_special _ _ Md) as (NDA & NDB & _).
  assert (forall q, q <> RAX -> rget (regs m1) q = rget (regs m) q) as O1' by (intros; apply O1; auto).
  clear O1.
  cbn [operand_reg] in Same, NDX |- *. unfold is_dx in NDX |- *. cbn [operand_reg] in NDX |- *.
  rewrite Mf in Same, NDX. rewrite Md, Mf.
  (* the divisor in register xg *)
  match type of H with bind ?x _ = _ => destruct x as [[cs1 xg] | | | |] eqn:D; cbn [bind] in H; try discriminate end.
  assert (exists m2, runs e cs1 m (Next m2) /\ X64Isa.mem m2 = X64Isa.mem m
          /\ low s (rget (regs m2) RAX) = low s (interp (reg_unsigned rf) zf (rget (regs m) (reg_of xf)))
          /\ low s (rget (regs m2) (reg_of xg)) = low s vg
          /\ reg_of xg <> RDX /\ reg_of xg <> RAX
          /\ (forall q, q <> RAX -> (if operand_reg g then True else q <> R10) -> q <> reg_of xf -> (operand_reg g <> Some RDX -> operand_reg g <> Some q) ->
                rget (regs m2) q = rget (regs m) q)
          /\ (~ In (operand_reg g) [None; Some RDX; Some (reg_of xd); Some (reg_of xf)] -> value m2 g = value m g)
          /\ (match operand_reg g with None => reg_of xg = R10
              | Some q => (q = RDX /\ xg = xf) \/ (q <> RDX /\ reg_of xg = q) end))
    as (m2 & R2 & M2 & A2 & G2 & NGD & NGA & O2 & K2 & X2).
  { destruct g as [| sg rg | | | | sg i |]; try contradiction.
    - unfold ope_real in D. cbn [ope_reg deref bind] in D.
      destruct (CALLER (reg_id rg)) as [yg | | | |] eqn:Cg; cbn [bind] in D; try discriminate.
      unfold ope_unsigned in D. cbn [ope_reg deref bind] in D. okinv D. injection D as D1 D2. subst cs1.
      pose proof (caller_machine _ _ Cg) as Mg. pose proof (machine_reg_not_special _ _ Mg) as (NGA & _).
      cbn [operand_size] in Zg. cbn [value] in Vg. rewrite Zg, Mg in Vg. injection Vg as <-.
      cbn [operand_size] in Wg. rewrite Zg in Wg. cbn [operand_reg] in *. rewrite Mg in *.
      rewrite D2.
      destruct (append_mov_runs e _ zg yg _ s xg (reg_unsigned rg) m1 Sg Ss Wg) as (m2 & R2 & M2 & _ & V2 & O2 & I2 & _).
      assert (uses_ax (reg_unsigned rg) zg s = true -> False) as NU.
      { intros U. apply Hfree. unfold uses_ax in U. cbn [operand_unsigned is_register operand_size].
        destruct (reg_unsigned rg), zg, s eqn:Es; try discriminate.
        repeat split; try assumption. rewrite Zf. destruct zf; cbn in Es; congruence. }
      assert (forall q, q <> reg_of xg -> rget (regs m2) q = rget (regs m1) q) as O2' by (intros q Hq; apply O2; [exact Hq | tauto]).
      destruct (xreg_beq yg DX_REG_ID) eqn:B.
      + apply xreg_beq_true in B. subst yg. rewrite <- D2 in *. cbn [reg_of] in *. clear D2.
        assert (reg_of xf <> RDX) as NFD by (intros E; apply NDX; rewrite E; auto).
        exists m2. split; [eapply runs_app; eassumption |]. split; [congruence |].
        split; [rewrite O2' by congruence; exact V1 |].
        split; [rewrite V2, O1' by congruence; reflexivity |].
        split; [exact NFD |]. split; [exact NFA |].
        split; [intros q N1 _ N2 _; rewrite O2' by exact N2; apply O1', N1 |].
        split; [intros N; exfalso; apply N; cbn; auto |]. left; auto.
      + rewrite <- D2 in *. clear D2. pose proof (xreg_beq_false _ _ B) as NGD. cbn [reg_of] in NGD.
        assert (rget (regs m1) (reg_of yg) = rget (regs m) (reg_of yg)) as Y1 by (apply O1', NGA).
        exists m2. split; [eapply runs_app; eassumption |]. split; [congruence |].
        split; [rewrite O2' by congruence; exact V1 |].
        split; [rewrite V2, Y1; reflexivity |].
        split; [exact NGD |]. split; [exact NGA |].
        split. { intros q N1 _ N2 N3. rewrite O2'; [apply O1', N1 |]. intros ->. apply N3; congruence. }
        split; [| right; auto].
        intros _. cbn [value]. rewrite Zg, Mg. f_equal. apply interp_of_low.
        rewrite <- (low_low_le zg s (rget (regs m2) (reg_of yg)) Lg), V2, (low_low_le _ _ _ Lg), low_interp, Y1. reflexivity.
    - cbn [operand_size] in Zg. change (CALLER (NUM_CALLER_SAVED_REGS - 2)) with (Ok R10_REG_ID) in D. cbn [bind] in D.
      okinv D. injection D as <- <-. cbn [value] in Vg. injection Vg as <-. cbn [operand_reg].
      eexists. split.
      { eapply runs_app; [exact R1 |]. eapply run_mov_imm; [exact Ss | exact Ld]. }
      cbn [X64Isa.mem regs set_regs reg_of]. split; [exact M1 |].
      split; [rewrite rget_put_other by discriminate; exact V1 |].
      split; [rewrite low_put by lia; apply low_low |].
      split; [discriminate |]. split; [discriminate |].
      split; [intros q N1 N2 _ _; rewrite rget_put_other by exact N2; apply O1', N1 |].
      split; [intros N; exfalso; apply N; left; reflexivity | reflexivity]. }
  match type of H with bind ?x _ = _ => destruct x as [evac | | | |] eqn:Ev; cbn [bind] in H; try discriminate end.
  change (CALLEE 0) with (Ok BX_REG_ID) in H. cbn [bind] in H.
  unfold ope_unsigned in H. cbn [ope_reg deref bind] in H.
  assert (1 <= x_evac st' \/ evac = false) as Hevac.
  { destruct evac; [left | auto]. unfold finish in H. cbn [andb] in H.
    destruct (x_evac st <? 1) eqn:B; cbn [x_lives x_evac] in H;
      destruct (liveseqs_next (x_lives st)); cbn [bind] in H; try discriminate; okinv H; injection H as _ <-; cbn; lia. }
  apply finish_ok in H. subst cs.
  (* DX saved *)
  assert (exists m3, runs e (if evac then append_mov_code X64_SUFFIX_QUAD DX_REG_ID X64_SUFFIX_QUAD BX_REG_ID false else []) m2 (Next m3)
          /\ X64Isa.mem m3 = X64Isa.mem m2 /\ (forall q, q <> RBX \/ evac = false -> rget (regs m3) q = rget (regs m2) q)
          /\ (evac = true -> low S8 (rget (regs m3) RBX) = low S8 (rget (regs m2) RDX))) as (m3 & R3 & M3 & O3 & B3).
  { destruct evac.
    - destruct (append_mov_runs e X64_SUFFIX_QUAD S8 DX_REG_ID X64_SUFFIX_QUAD S8 BX_REG_ID false m2 eq_refl eq_refl
                  ltac:(intros (? & _); discriminate)) as (m3 & R3 & M3 & _ & V3 & O3 & _).
      exists m3. cbn [reg_of] in *. repeat split; auto.
      + intros q [N | N]; [| discriminate]. apply O3; [exact N | discriminate].
      + intros _. rewrite V3. apply low_interp.
    - exists m2. repeat split; auto using runs_nil. discriminate. }
  (* sign or zero extension *)
  set (u := reg_unsigned rd) in *.
  set (qa := interp (reg_unsigned rf) zf (rget (regs m) (reg_of xf))) in *.
  set (extend := if u then _ else if xsuffix_beq xs X64_SUFFIX_QUAD then _ else _).
  assert (exists m4, runs e extend m3 (Next m4) /\ X64Isa.mem m4 = X64Isa.mem m3
          /\ (forall q, q <> RDX -> rget (regs m4) q = rget (regs m3) q)
          /\ (u = true -> low s (rget (regs m4) RDX) = 0)
          /\ (u = false -> low s (rget (regs m4) RDX) = low s (if signed s qa <? 0 then -1 else 0))) as (m4 & R4 & M4 & O4 & U4 & S4').
  { destruct u.
    - eexists. split; [unfold extend; apply (run_mov_imm e X64_SUFFIX_LONG S4); reflexivity |].
      cbn [X64Isa.mem regs set_regs reg_of]. split; [reflexivity |].
      split; [intros q Hq; apply rget_put_other, Hq |]. split; [| discriminate].
      intros _. rewrite rget_put4. destruct s; reflexivity.
    - exists (set_regs m3 (put (regs m3) s RDX (if signed s (get (regs m3) s RAX) <? 0 then -1 else 0))).
      cbn [X64Isa.mem regs set_regs]. split.
      { unfold extend. apply runs_one with (i := Cxtd s) || idtac.
        destruct xs, s; cbn in Ss; try discriminate; try (exfalso; apply NS1; reflexivity); cbn [xsuffix_beq xsuffix_num Z.eqb];
          eapply runs_one with (i := Cxtd _); reflexivity. }
      repeat split; [intros q Hq; apply rget_put_other, Hq | discriminate |].
      intros _. rewrite low_put by lia. unfold get. rewrite signed_low.
      rewrite (signed_of_low s (rget (regs m3) RAX) qa); [reflexivity |].
      rewrite O3 by (left; discriminate). exact A2. }
  (* the division *)
  assert (forall q, q <> RDX -> q <> RBX -> rget (regs m4) q = rget (regs m2) q) as O24.
  { intros q N1 N2. rewrite O4 by exact N1. apply O3. auto. }
  assert (rget (regs m4) RAX = rget (regs m2) RAX) as A4 by (apply O24; discriminate).
  assert (reg_of xg <> RBX) as NGB.
  { destruct (operand_reg g) as [q |] eqn:Eg.
    - destruct X2 as [(_ & ->) | (_ & <-)]; [exact NFB |]. apply operand_reg_not_special in Eg. tauto.
    - rewrite X2. discriminate. }
  assert (rget (regs m4) (reg_of xg) = rget (regs m2) (reg_of xg)) as G4 by (apply O24; assumption).
  assert (interp u s (rget (regs m4) (reg_of xg)) = interp u s vg) as Y4 by (apply interp_of_low; rewrite G4; exact G2).
  set (x := interp u s qa) in *. set (y := interp u s vg) in *.
  assert (y <> 0 /\ in_range u s (Z.quot x y) = true /\ r = match result with AX_REG_ID => Z.quot x y | _ => Z.rem x y end) as (Hy & Hq & Hrr).
  { destruct Hres as [(-> & ->) | (-> & ->)]; cbn [binop] in Hr; fold x y in Hr;
      destruct ((y =? 0) || negb (in_range u s (Z.quot x y))) eqn:B; try discriminate; injection Hr as <-;
      apply orb_false_iff in B as [B1 B2]; apply negb_false_iff in B2; repeat split; auto; lia. }
  set (m5 := set_arith m4 (put (put (regs m4) s RAX (Z.quot x y)) s RDX (Z.rem x y))).
  assert (runs e [X64_INST (if u then X64_INST_DIVX else X64_INST_IDIVX) (Some (X64_OPERAND_REG xs xg)) None] m4 (Next m5)) as R5.
  { replace (Next m5) with (exec e (if u then Div s (reg_of xg) else Idiv s (reg_of xg)) m4).
    - apply runs_one.
      assert (mnemonic_size (Some (X64_OPERAND_REG xs xg)) None = Some s) as Hm by exact Ss.
      destruct u; cbn [decode]; rewrite Hm, (reg_operand_same s _ xg Ss); destruct s; try reflexivity; exfalso; apply NS1; reflexivity.
    - apply (divide_step u s qa (reg_of xg) m4 e m5); auto.
      + rewrite A4. exact A2.
      + cbv zeta. rewrite Y4. exact Hy.
      + cbv zeta. rewrite Y4. exact Hq.
      + unfold m5. rewrite Y4. reflexivity. }
  assert (low s (rget (regs m5) (reg_of result)) = low s r) as V5.
  { unfold m5; cbn [regs set_arith]. destruct Hres as [(_ & ->) | (_ & ->)]; cbn [reg_of]; rewrite Hrr.
    - rewrite rget_put_other by discriminate. apply low_put. lia.
    - apply low_put. lia. }
  assert (forall q, q <> RAX -> q <> RDX -> rget (regs m5) q = rget (regs m4) q) as O5.
  { intros q N1 N2. unfold m5; cbn [regs set_arith]. rewrite !rget_put_other by assumption. reflexivity. }
  (* the result *)
  destruct (append_mov_runs e xs s result (xsuffix_of (IMMC_OPERAND_REG sd rd)) zd xd u m5 Ss
              (size_of_suffix (IMMC_OPERAND_REG sd rd) zd Zd) Wd) as (m6 & R6 & M6 & _ & V6 & O6 & _ & _).
  assert (forall q, q <> RAX -> q <> reg_of xd -> rget (regs m6) q = rget (regs m5) q) as O6' by (intros; apply O6; auto).
  (* DX restored *)
  assert (evac = true -> reg_of xd <> RDX) as NED.
  { intros ->. destruct (xreg_beq xf DX_REG_ID || xreg_beq xg DX_REG_ID || xreg_beq xd DX_REG_ID) eqn:B; [discriminate |].
    apply orb_false_iff in B as [_ B]. apply xreg_beq_false in B. exact B. }
  assert (exists m7, runs e (if evac then append_mov_code X64_SUFFIX_QUAD BX_REG_ID X64_SUFFIX_QUAD DX_REG_ID false else []) m6 (Next m7)
          /\ X64Isa.mem m7 = X64Isa.mem m6 /\ (forall q, q <> RDX \/ evac = false -> rget (regs m7) q = rget (regs m6) q)
          /\ (evac = true -> low S8 (rget (regs m7) RDX) = low S8 (rget (regs m6) RBX))) as (m7 & R7 & M7 & O7 & B7).
  { destruct evac.
    - destruct (append_mov_runs e X64_SUFFIX_QUAD S8 BX_REG_ID X64_SUFFIX_QUAD S8 DX_REG_ID false m6 eq_refl eq_refl
                  ltac:(intros (? & _); discriminate)) as (m7 & R7 & M7 & _ & V7 & O7 & _).
      exists m7. cbn [reg_of] in *. repeat split; auto.
      + intros q [N | N]; [| discriminate]. apply O7; [exact N | discriminate].
      + intros _. rewrite V7. apply low_interp.
    - exists m6. repeat split; auto using runs_nil. discriminate. }
  assert (rget (regs m7) (reg_of xd) = rget (regs m6) (reg_of xd)) as D7.
  { apply O7. destruct evac; [left; auto | right; reflexivity]. }
  (* registers that keep their value from m2 on *)
  assert (forall q, q <> RAX -> q <> RDX -> q <> RBX -> q <> reg_of xd -> rget (regs m7) q = rget (regs m2) q) as O27.
  { intros q N1 N2 N3 N4. rewrite O7 by auto. rewrite O6' by auto. rewrite O5 by auto. apply O24; auto. }
  exists m7.
  split. { repeat (eapply runs_app; [eassumption |]). exact R7. }
  split.
  { cbn [value]. unfold result_in. cbn [operand_size operand_unsigned]. rewrite Zd, Md. fold u. f_equal. apply interp_of_low.
    rewrite D7, V6. f_equal. apply interp_of_low. exact V5. }
  split.
  { split. { rewrite M7, M6. unfold m5; cbn [X64Isa.mem set_arith]. congruence. }
    intros q Hin. cbn [In] in Hin. rewrite in_app_iff in Hin. cbn [regs_of flat_map operand_reg] in Hin. rewrite Md, Mf in Hin.
    cbn [app In] in Hin.
    assert (q <> RAX /\ q <> RDX /\ q <> RBX /\ q <> reg_of xd /\ q <> reg_of xf) as (N1 & N2 & N3 & N4 & N5) by (repeat split; intros ->; tauto).
    rewrite O27 by assumption. apply O2; auto.
    - destruct (operand_reg g); [exact I |]. intros ->. apply Hin. right; right; right; left. cbn. auto.
    - intros _ Eg. rewrite Eg in Hin. apply Hin. right; right; right; right. right; right. cbn. auto. }
  split.
  { intros Hg. rewrite <- (K2 Hg). cbn [In] in Hg.
    destruct g as [| sg rg | | | | |]; try contradiction; try (cbn in Hg; exfalso; apply Hg; left; reflexivity).
    cbn [value operand_reg] in *. destruct (suffix_size sg); [| reflexivity].
    destruct (machine_reg (reg_id rg)) as [qg |] eqn:Mg; [| reflexivity].
    pose proof (machine_reg_not_special _ _ Mg) as (N1 & N2 & _).
    do 2 f_equal. apply O27; auto; intros ->; apply Hg; auto. }
  split.
  { intros Hlive N1 N2.
    assert (evac = true) as ->.
    { destruct (xreg_beq xf DX_REG_ID || xreg_beq xg DX_REG_ID || xreg_beq xd DX_REG_ID) eqn:B.
      - exfalso. apply orb_true_iff in B as [B | B]; [apply orb_true_iff in B as [B | B] |]; apply xreg_beq_true in B; subst.
        + apply N2. reflexivity.
        + apply NGD. reflexivity.
        + apply N1. reflexivity.
      - destruct (create_alive_regs_set (x_lives st)) as [set | | | |] eqn:Cs; cbn [bind] in Ev; try discriminate.
        eapply dx_evacuated; eassumption. }
    unfold get. rewrite (B7 eq_refl), O6' by (try discriminate; congruence).
    rewrite O5, O4 by discriminate. rewrite (B3 eq_refl). f_equal. apply O2; try discriminate; try congruence.
    destruct (operand_reg g); [exact I | discriminate]. }
  { destruct Hevac as [He | ->]; [right; exact He |]. left.
    rewrite O7 by (right; reflexivity). rewrite O6' by (try discriminate; congruence).
    rewrite O5 by discriminate. rewrite O4 by discriminate. rewrite O3 by (right; reflexivity).
    apply O2; try discriminate; try congruence.
    - destruct (operand_reg g); [exact I | discriminate].
    - intros _ Eg. apply operand_reg_not_special in Eg. tauto. }
Qed.
