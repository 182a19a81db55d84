(** The code generated for one instruction does what the instruction means: arithmetic and logic. *)
From Coq Require Import Lia ZifyBool.
From Verif Require Import Base X64genModel X64Decode X64Isa OpSpec IsaProofs X64genProofs.
Open Scope Z_scope.

Lemma ope_real_reg o x : ope_real o = Ok x -> operand_reg o = Some (reg_of x) \/ exists s r, o = IMMC_OPERAND_ARG s r.
Proof.
  unfold ope_real. destruct o as [s r | s r | r | z | n | s i | s]; cbn; try discriminate; intros H.
  - right. eauto.
  - left. apply caller_machine, H.
  - left. apply caller_machine, H.
Qed.

Lemma operand_reg_not_special o q : operand_reg o = Some q -> q <> RAX /\ q <> RBX /\ q <> RSP /\ q <> RBP.
Proof. destruct o; cbn; try discriminate; apply machine_reg_not_special. Qed.

Lemma ok_inj {A} (a b : A) : Ok a = Ok b -> a = b.
Proof. congruence. Qed.
Ltac okinv H := apply ok_inj in H.

Lemma finish_ok cs st cs' st' : finish cs st = Ok (cs', st') -> cs' = cs.
Proof.
  unfold finish. destruct (liveseqs_next (x_lives st)) as [l | | | |]; cbn; try discriminate.
  intros H. okinv H. congruence.
Qed.

Lemma read_reg e s r m : read e s (Reg r) m = Some (get (regs m) s r).
Proof. reflexivity. Qed.

(** the two sources before the operation *)
Lemma two_sources_prepare e t to f g cs ss acc s m vf vg :
  two_sources t to f g = Ok (cs, ss, acc) ->
  sources f g s -> (to = None \/ (to = Some AX_REG_ID /\ accumulator_free f g)) ->
  value m f = Some vf -> value m g = Some vg ->
  exists pre src o m1,
    cs = pre ++ [X64_INST t (Some src) (Some (X64_OPERAND_REG ss acc))]
    /\ size_of ss = Some s /\ runs e pre m (Next m1) /\ mem m1 = mem m
    /\ low s (rget (regs m1) (reg_of acc)) = low s vf
    /\ operand s (imm_fits s) src = Some o /\ suffix_bearing (Some src) = Some ss
    /\ (exists v, read e s o m1 = Some v /\ low s v = low s vg)
    /\ match to with Some r => acc = r | None => operand_reg f = Some (reg_of acc) end
    /\ (forall q, q <> reg_of acc -> q <> RAX -> operand_reg g <> Some q -> rget (regs m1) q = rget (regs m) q)
    /\ (operand_reg g <> Some (reg_of acc) -> operand_reg g <> None -> value m1 g = value m g).
Proof.
  intros H (Rf & Rg & Hc & Wf & Wg & En & Same) Hto Vf Vg.
  destruct f as [| sf rf | | | | |]; try contradiction.
  unfold two_sources in H. cbn [ope_reg deref bind] in H. unfold ope_real in H at 1. cbn [ope_reg deref bind] in H.
  destruct (CALLER (reg_id rf)) as [xf | | | |] eqn:Cf; cbn [bind] in H; try discriminate.
  cbn [ope_unsigned ope_reg deref bind] in H. unfold ope_unsigned in H at 1. cbn [ope_reg deref bind] in H.
  pose proof (caller_machine _ _ Cf) as Mf.
  unfold common in Hc. cbn [operand_size] in Hc.
  destruct (suffix_size sf) as [zf |] eqn:Zf; [| discriminate].
  destruct (operand_size g) as [zg |] eqn:Zg; [| discriminate]. injection Hc as <-.
  cbn [value] in Vf. rewrite Zf, Mf in Vf. injection Vf as <-.
  unfold widens_operand in Wf, Wg. cbn [operand_size] in Wf. rewrite Zf in Wf.
  pose proof (size_of_suffix (IMMC_OPERAND_REG sf rf) zf Zf) as Sf.
  assert (size_of (xsuffix_of g) = Some zg) as Sg.
  { apply size_of_suffix. destruct g; try contradiction; exact Zg. }
  pose proof (greater_larger _ _ _ _ Sf Sg) as Ss.
  set (s := larger zf zg) in *. set (xs := x64suffix_greater (xsuffix_of (IMMC_OPERAND_REG sf rf)) (xsuffix_of g)) in *.
  pose proof (larger_l zf zg : nbits zf <= nbits s) as Lf. pose proof (larger_r zf zg : nbits zg <= nbits s) as Lg.
  set (xacc := match to with Some r => r | None => xf end) in *.
  destruct (append_mov_runs e _ zf xf _ s xacc (reg_unsigned rf) m Sf Ss Wf)
    as (m1 & R1 & M1 & _ & V1 & O1 & I1 & _).
  pose proof (machine_reg_not_special _ _ Mf) as (NFA & _).
  assert (match to with Some r => xacc = r | None => operand_reg (IMMC_OPERAND_REG sf rf) = Some (reg_of xacc) end) as Hacc.
  { unfold xacc. destruct to; [reflexivity | cbn; exact Mf]. }
  destruct g as [| sg rg | | | | sg i |]; try contradiction.
  - (* register *)
    unfold ope_real in H. cbn [ope_reg deref bind] in H.
    destruct (CALLER (reg_id rg)) as [xg | | | |] eqn:Cg; cbn [bind] in H; try discriminate.
    unfold ope_unsigned in H. cbn [ope_reg deref bind] in H. okinv H.
    injection H as <- <- <-.
    pose proof (caller_machine _ _ Cg) as Mg. pose proof (machine_reg_not_special _ _ Mg) as (NGA & _).
    cbn [operand_size] in Zg. cbn [value] in Vg. rewrite Zg, Mg in Vg. injection Vg as <-.
    cbn [operand_size] in Wg. rewrite Zg in Wg.
    destruct (append_mov_runs e _ zg xg _ s xg (reg_unsigned rg) m1 Sg Ss Wg)
      as (m2 & R2 & M2 & _ & V2 & O2 & I2 & _).
    (* g is as in m before its widening *)
    assert (xg <> xacc -> rget (regs m1) (reg_of xg) = rget (regs m) (reg_of xg)) as G1.
    { intros N. apply O1; [intros E; apply N, reg_of_inj, E | intros _; exact NGA]. }
    cbn [operand_reg] in Same. rewrite Mf, Mg in Same. cbn [operand_size] in Same. rewrite Zf in Same.
    (* widening g keeps the accumulator *)
    assert (low s (rget (regs m2) (reg_of xacc)) = low s (interp (reg_unsigned rf) zf (rget (regs m) (reg_of xf)))) as A2.
    { rewrite <- V1. f_equal. destruct (reg_dec (reg_of xacc) (reg_of xg)) as [E | N].
      - (* the accumulator is g's register, so f's, and nothing is widened *)
        apply reg_of_inj in E. assert (xf = xg) as ->.
        { unfold xacc in E. destruct to; [| congruence]. destruct Hto as [? | [Ht _]]; [discriminate |].
          injection Ht as ->. subst xg. cbn in NGA. congruence. }
        assert (zf = zg) as -> by (specialize (Same eq_refl); congruence).
        rewrite I2; [reflexivity | reflexivity |]. unfold s. rewrite larger_same. lia.
      - apply O2; [exact N |]. intros U E. unfold xacc in E.
        destruct to as [r |]; [| congruence]. destruct Hto as [? | [Ht Hfree]]; [discriminate |].
        injection Ht as ->. apply Hfree. unfold uses_ax in U. cbn [operand_size operand_unsigned is_register].
        destruct (reg_unsigned rg), zg, s eqn:Es; try discriminate.
        repeat split; try assumption. rewrite Zf. destruct zf; cbn in Es; congruence. }
    exists (append_mov_code (xsuffix_of (IMMC_OPERAND_REG sf rf)) xf xs xacc (reg_unsigned rf) ++
            append_mov_code (xsuffix_of (IMMC_OPERAND_REG sg rg)) xg xs xg (reg_unsigned rg)),
      (X64_OPERAND_REG xs xg), (Reg (reg_of xg)), m2.
    split; [rewrite <- app_assoc; reflexivity |].
    split; [exact Ss |]. split; [eapply runs_app; eassumption |]. split; [congruence |].
    split; [exact A2 |].
    split. { unfold operand. rewrite (reg_operand_same s xs xg Ss). reflexivity. }
    split; [reflexivity |].
    split.
    { eexists. split; [apply read_reg |]. unfold get. rewrite low_low.
      destruct (reg_dec (reg_of xg) (reg_of xacc)) as [E | N].
      - assert (xf = xg) as Efg.
        { apply reg_of_inj in E. unfold xacc in E. destruct to; [| congruence]. destruct Hto as [? | [Ht _]]; [discriminate |].
          injection Ht as ->. subst xg. cbn in NGA. congruence. }
        rewrite Efg in *. assert (zf = zg) as -> by (specialize (Same eq_refl); congruence).
        rewrite E, A2, <- E. unfold s. rewrite larger_same, !low_interp. reflexivity.
      - rewrite V2. rewrite G1; [reflexivity |]. intros ->. congruence. }
    split; [exact Hacc |].
    split.
    { intros q N1 N2 N3. cbn [operand_reg] in N3. rewrite O2.
      - apply O1; [exact N1 | intros _; exact N2].
      - intros ->. apply N3. exact Mg.
      - intros _. exact N2. }
    { intros N _. cbn [operand_reg value] in *. rewrite Mg in N. rewrite Zg, Mg. f_equal.
      apply interp_of_low.
      assert (low zg (rget (regs m2) (reg_of xg)) = low zg (interp (reg_unsigned rg) zg (rget (regs m1) (reg_of xg)))) as ->.
      { rewrite <- (low_low_le zg s (rget (regs m2) (reg_of xg))) by exact Lg. rewrite V2. apply low_low_le, Lg. }
      rewrite low_interp, G1; [reflexivity |]. intros ->. congruence. }
  - (* literal *)
    cbn [operand_size] in Zg. okinv H. injection H as <- <- <-.
    cbn [value] in Vg. injection Vg as <-.
    exists (append_mov_code (xsuffix_of (IMMC_OPERAND_REG sf rf)) xf xs xacc (reg_unsigned rf)),
      (X64_OPERAND_INT xs i), (Imm (lit_value i)), m1.
    split; [reflexivity |]. split; [exact Ss |]. split; [exact R1 |]. split; [exact M1 |].
    split; [exact V1 |].
    split. { cbn [operand]. cbn [encodable] in En. rewrite En. reflexivity. }
    split; [reflexivity |].
    split. { eexists. split; [reflexivity |]. apply low_low. }
    split; [exact Hacc |].
    split. { intros q N1 N2 _. apply O1; [exact N1 | intros _; exact N2]. }
    { intros _ N. cbn in N. congruence. }
Qed.

Definition alu_of (t : insttype) : option (xinst * aluop * option xreg) :=
  match t with
  | IMMC_INST_ADD => Some (X64_INST_ADDX, Add, None)
  | IMMC_INST_SUB => Some (X64_INST_SUBX, Sub, None)
  | IMMC_INST_MUL => Some (X64_INST_IMULX, Imul, Some AX_REG_ID)
  | IMMC_INST_AND => Some (X64_INST_ANDX, And, None)
  | IMMC_INST_OR => Some (X64_INST_ORX, Or, None)
  | IMMC_INST_XOR => Some (X64_INST_XORX, Xor, None)
  | _ => None
  end.
Lemma alu_binop t x a to u s vf vg r p q :
  alu_of t = Some (x, a, to) -> binop t u s vf vg = Some r ->
  low s p = low s vf -> low s q = low s vg -> low s (alu a p q) = low s r.
Proof.
  destruct t; cbn; try discriminate; intros H R; injection H as <- <- <-; injection R as <-; intros Hp Hq; cbn;
    auto using low_add, low_sub, low_mul, low_land, low_lor, low_lxor.
Qed.
Lemma decode_alu_gen t x a to ss s src o acc :
  alu_of t = Some (x, a, to) -> (t = IMMC_INST_MUL -> s <> S1) ->
  size_of ss = Some s -> operand s (imm_fits s) src = Some o ->
  decode x (Some src) (Some (X64_OPERAND_REG ss acc)) = Some (Alu a s o (reg_of acc)).
Proof.
  intros A M Hs Ho.
  assert (mnemonic_size (Some src) (Some (X64_OPERAND_REG ss acc)) = Some s) as Hm by exact Hs.
  destruct t; cbn in A; try discriminate; injection A as <- <- <-; cbn [decode]; rewrite Hm; unfold decode_alu;
    rewrite (reg_operand_same s ss acc Hs), Ho; try reflexivity.
  destruct s; try reflexivity. exfalso. apply M; reflexivity.
Qed.

Lemma binary_correct t d f g st cs st' e m s vf vg r :
  In t [IMMC_INST_ADD; IMMC_INST_SUB; IMMC_INST_MUL; IMMC_INST_AND; IMMC_INST_OR; IMMC_INST_XOR] ->
  gen_inst_x64code (IMMC_INST t (Some d) (Some f) (Some g)) st = Ok (cs, st') ->
  sources f g s -> destination d s -> (t = IMMC_INST_MUL -> s <> S1 /\ accumulator_free f g) ->
  value m f = Some vf -> value m g = Some vg ->
  binop t (operand_unsigned d) s vf vg = Some r ->
  exists m', runs e cs m (Next m') /\ value m' d = result_in d s r
    /\ changes_only (RAX :: regs_of [d; f; g]) m m'
    /\ (~ In (operand_reg g) [None; operand_reg d; operand_reg f] -> value m' g = value m g).
Proof.
  intros Ht H Hsrc (Rd & Wd) Hmul Vf Vg Hr.
  assert (exists x a to, alu_of t = Some (x, a, to)
          /\ gen_inst_x64code (IMMC_INST t (Some d) (Some f) (Some g)) st = gen_binary x to (Some d) (Some f) (Some g) st
          /\ (to = None \/ (to = Some AX_REG_ID /\ t = IMMC_INST_MUL))) as (x & a & to & A & E & Hto).
  { cbn in Ht. repeat (destruct Ht as [<- | Ht]; [do 3 eexists; split; [reflexivity |]; split; [reflexivity | auto] |]). contradiction. }
  rewrite E in H. clear E. unfold gen_binary in H. cbn [deref bind] in H.
  destruct d as [| sd rd | | | | |]; try contradiction.
  unfold ope_real in H at 1. cbn [ope_reg deref bind] in H.
  destruct (CALLER (reg_id rd)) as [xd | | | |] eqn:Cd; cbn [bind] in H; try discriminate.
  destruct (two_sources x to f g) as [[[cs1 ss] acc] | | | |] eqn:T; cbn [bind] in H; try discriminate.
  unfold ope_unsigned in H. cbn [ope_reg deref bind] in H.
  apply finish_ok in H. subst cs.
  cbn [operand_size operand_unsigned] in *. destruct (suffix_size sd) as [zd |] eqn:Zd; [| contradiction].
  assert (to = None \/ (to = Some AX_REG_ID /\ accumulator_free f g)) as Hto'.
  { destruct Hto as [? | [? M]]; [auto |]. right. split; [assumption |]. apply Hmul, M. }
  destruct (two_sources_prepare e x to f g cs1 ss acc s m vf vg T Hsrc Hto' Vf Vg)
    as (pre & src & o & m1 & -> & Ss & R1 & M1 & A1 & Ho & _ & (v & Hv & Lv) & Hacc & O1 & G1).
  assert (t = IMMC_INST_MUL -> s <> S1) as HM by (intros M; apply Hmul, M).
  pose proof (decode_alu_gen t x a to ss s src o acc A HM Ss Ho) as Hdec.
  set (m2 := set_arith m1 (put (regs m1) s (reg_of acc) (alu a (get (regs m1) s (reg_of acc)) v))).
  assert (runs e [X64_INST x (Some src) (Some (X64_OPERAND_REG ss acc))] m1 (Next m2)) as R2.
  { replace (Next m2) with (exec e (Alu a s o (reg_of acc)) m1).
    - apply runs_one, Hdec.
    - cbn [exec]. rewrite Hv. destruct a; try reflexivity. destruct t; discriminate. }
  assert (low s (rget (regs m2) (reg_of acc)) = low s r) as V2.
  { unfold m2; cbn [regs set_arith]. rewrite low_put by lia.
    eapply alu_binop; try eassumption. unfold get. rewrite low_low. exact A1. }
  destruct (append_mov_runs e ss s acc (xsuffix_of (IMMC_OPERAND_REG sd rd)) zd xd (reg_unsigned rd) m2 Ss
              (size_of_suffix (IMMC_OPERAND_REG sd rd) zd Zd) Wd) as (m3 & R3 & M3 & _ & V3 & O3 & _ & _).
  pose proof (caller_machine _ _ Cd) as Md.
  exists m3. split. { repeat (eapply runs_app; [try eassumption |]); eassumption. }
  split.
  { cbn [value]. unfold result_in. cbn [operand_size operand_unsigned]. rewrite Zd, Md. f_equal. apply interp_of_low.
    rewrite V3. f_equal. apply interp_of_low. exact V2. }
  assert (reg_of acc = RAX \/ operand_reg f = Some (reg_of acc)) as Hacc'.
  { destruct Hto as [-> | [-> _]]; [right; exact Hacc | left; rewrite Hacc; reflexivity]. }
  split.
  - split; [rewrite M3; exact M1 |]. intros q Hq. cbn [In regs_of flat_map operand_reg] in Hq.
    rewrite Md in Hq.
    assert (q <> RAX) as NA by (intros ->; apply Hq; auto).
    assert (q <> reg_of xd) as ND by (intros ->; apply Hq; right; left; reflexivity).
    assert (operand_reg f <> Some q) as NF.
    { intros Hf. apply Hq. right. rewrite Hf. cbn. auto. }
    assert (operand_reg g <> Some q) as NG.
    { intros Hg. apply Hq. right. rewrite Hg. cbn. right. apply in_or_app. right. cbn. auto. }
    assert (q <> reg_of acc) as NAc by (intros ->; destruct Hacc'; congruence).
    rewrite O3 by auto. unfold m2; cbn [regs set_arith]. rewrite rget_put_other by exact NAc.
    apply O1; auto.
  - intros Hg. cbn [In operand_reg] in Hg.
    assert (operand_reg g <> Some (reg_of acc)) as NG.
    { intros Eg. destruct Hacc' as [EA | EF].
      - rewrite EA in Eg. destruct g; cbn in Eg; try discriminate; apply machine_reg_not_special in Eg; tauto.
      - apply Hg. right. right. left. congruence. }
    assert (operand_reg g <> None) as NN by (intros Eg; apply Hg; left; congruence).
    rewrite <- (G1 NG NN).
    destruct Hsrc as (_ & Rg & _). destruct g as [| sg rg | | | | |]; try contradiction; try (cbn in NN; congruence).
    cbn [value operand_reg] in *. destruct (suffix_size sg); [| reflexivity].
    destruct (machine_reg (reg_id rg)) as [qg |] eqn:Mg; [| reflexivity].
    do 2 f_equal. rewrite O3.
    + unfold m2; cbn [regs set_arith]. apply rget_put_other. congruence.
    + intros ->. apply Hg. right. left. congruence.
    + intros _ ->. apply machine_reg_not_special in Mg. tauto.
Qed.
