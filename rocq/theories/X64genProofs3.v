(** The code generated for one instruction does what the instruction means: unary operations, shifts,
    comparisons and conditional jumps. *)
From Coq Require Import Lia ZifyBool.
From Verif Require Import Base X64genModel X64Decode X64Isa OpSpec IsaProofs X64genProofs X64genProofs2.
Open Scope Z_scope.

(** * neg and not *)
Lemma unary_correct t d f st cs st' e m s v r :
  In t [IMMC_INST_NEG; IMMC_INST_NOT] ->
  gen_inst_x64code (IMMC_INST t (Some d) (Some f) None) st = Ok (cs, st') ->
  is_register d -> is_register_or_literal f -> operand_size f = Some s -> loadable f s ->
  (exists z, operand_size d = Some z /\ widens (operand_unsigned f) s z) ->
  value m f = Some v -> unop_spec t v = Some r ->
  exists m', runs e cs m (Next m')
    /\ value m' d = match operand_size d with
                    | Some z => Some (interp (operand_unsigned d) z (interp (operand_unsigned f) s r)) | None => None end
    /\ changes_only (RAX :: regs_of [d; f]) m m'.
Proof.
  intros Ht H Rd Rf Zf Ld (zd & Zd & Wd) V Hr.
  assert (exists x a, ((t = IMMC_INST_NEG /\ x = X64_INST_NEGX /\ a = Neg) \/ (t = IMMC_INST_NOT /\ x = X64_INST_NOTX /\ a = Not))
          /\ gen_inst_x64code (IMMC_INST t (Some d) (Some f) None) st = gen_unary x (Some d) (Some f) st) as (x & a & A & E).
  { destruct Ht as [<- | [<- | []]]; do 2 eexists; split; [left; auto | reflexivity | right; auto | reflexivity]. }
  rewrite E in H. clear E. unfold gen_unary in H. cbn [deref bind] in H.
  destruct d as [| sd rd | | | | |]; try contradiction. clear Rd.
  unfold ope_real in H at 1. cbn [ope_reg deref bind] in H.
  destruct (CALLER (reg_id rd)) as [xd | | | |] eqn:Cd; cbn [bind] in H; try discriminate.
  pose proof (caller_machine _ _ Cd) as Md.
  cbn [operand_size operand_unsigned] in *.
  (* load, then operate in register [xr], with the source's value *)
  assert (exists cs1 xr u m1, cs = cs1 ++ [X64_INST x None (Some (X64_OPERAND_REG (xsuffix_of f) xr))]
                               ++ append_mov_code (xsuffix_of f) xr (xsuffix_of (IMMC_OPERAND_REG sd rd)) xd u
          /\ u = operand_unsigned f /\ runs e cs1 m (Next m1) /\ X64Isa.mem m1 = X64Isa.mem m
          /\ size_of (xsuffix_of f) = Some s
          /\ low s (rget (regs m1) (reg_of xr)) = low s v
          /\ (reg_of xr = reg_of xd \/ operand_reg f = Some (reg_of xr))
          /\ forall q, q <> reg_of xd -> rget (regs m1) q = rget (regs m) q)
    as (cs1 & xr & u & m1 & -> & -> & R1 & M1 & Ss & V1 & Hxr & O1).
  { destruct f as [| sf rf | | | | sf i |]; try contradiction.
    - unfold ope_real in H. cbn [ope_reg deref bind] in H.
      destruct (CALLER (reg_id rf)) as [xf | | | |] eqn:Cf; cbn [bind] in H; try discriminate.
      unfold ope_unsigned in H. cbn [ope_reg deref bind] in H. apply finish_ok in H. subst cs.
      pose proof (caller_machine _ _ Cf) as Mf.
      exists [], xf, (reg_unsigned rf), m. cbn [operand_size] in Zf. cbn [value] in V. rewrite Zf, Mf in V.
      injection V as <-.
      repeat split; auto using runs_nil, low_interp.
      all: try (apply size_of_suffix; exact Zf).
      all: symmetry; apply low_interp.
    - cbn [bind] in H. apply finish_ok in H. subst cs. cbn [operand_size] in Zf. cbn [value] in V. injection V as <-.
      pose proof (size_of_suffix (IMMC_OPERAND_INT sf i) s Zf) as Ss.
      do 4 eexists. split; [reflexivity |]. split; [reflexivity |].
      split; [eapply run_mov_imm; [exact Ss | exact Ld] |].
      cbn [X64Isa.mem regs set_regs]. repeat split; auto.
      + rewrite low_put by lia. apply low_low.
      + intros q Hq. apply rget_put_other, Hq. }
  set (m2 := (if match a with Neg => true | Not => false end then set_arith m1 else set_regs m1)
               (put (regs m1) s (reg_of xr) (match a with Neg => - get (regs m1) s (reg_of xr) | Not => -1 - get (regs m1) s (reg_of xr) end))).
  assert (runs e [X64_INST x None (Some (X64_OPERAND_REG (xsuffix_of f) xr))] m1 (Next m2)) as R2.
  { replace (Next m2) with (exec e (Un a s (reg_of xr)) m1).
    - apply runs_one.
      assert (mnemonic_size None (Some (X64_OPERAND_REG (xsuffix_of f) xr)) = Some s) as Hm by exact Ss.
      destruct A as [(_ & -> & ->) | (_ & -> & ->)]; cbn [decode]; rewrite Hm, (reg_operand_same s _ xr Ss); reflexivity.
    - destruct a; reflexivity. }
  assert (regs m2 = put (regs m1) s (reg_of xr) (match a with Neg => - get (regs m1) s (reg_of xr) | Not => -1 - get (regs m1) s (reg_of xr) end)
          /\ X64Isa.mem m2 = X64Isa.mem m1) as [G2 M2].
  { destruct a; split; reflexivity. }
  assert (low s (rget (regs m2) (reg_of xr)) = low s r) as V2.
  { rewrite G2, low_put by lia. destruct A as [(-> & _ & ->) | (-> & _ & ->)]; cbn in Hr; injection Hr as <-.
    - apply low_opp. unfold get. rewrite low_low. exact V1.
    - replace (Z.lnot v) with (-1 - v) by (unfold Z.lnot; lia). apply low_sub; [reflexivity |].
      unfold get. rewrite low_low. exact V1. }
  destruct (append_mov_runs e _ s xr (xsuffix_of (IMMC_OPERAND_REG sd rd)) zd xd (operand_unsigned f) m2 Ss
              (size_of_suffix (IMMC_OPERAND_REG sd rd) zd Zd) Wd) as (m3 & R3 & M3 & _ & V3 & O3 & _ & _).
  exists m3. split. { eapply runs_app; [exact R1 |]. eapply runs_app; [exact R2 | exact R3]. }
  split.
  { cbn [value]. rewrite Zd, Md. f_equal. apply interp_of_low. rewrite V3. f_equal. apply interp_of_low, V2. }
  split; [congruence |]. intros q Hq. cbn [In regs_of flat_map operand_reg] in Hq. rewrite Md in Hq.
  assert (q <> RAX) as NA by (intros ->; apply Hq; auto).
  assert (q <> reg_of xd) as ND by (intros ->; apply Hq; right; left; reflexivity).
  assert (q <> reg_of xr) as NR.
  { intros ->. destruct Hxr as [Ex | Ex]; [congruence |]. apply Hq. rewrite Ex. cbn. auto. }
  rewrite O3 by auto. rewrite G2, rget_put_other by exact NR. apply O1, ND.
Qed.

(** * Shifts by a literal *)
Lemma shift_correct t d f g st cs st' e m s vf vg r :
  In t [IMMC_INST_SAL; IMMC_INST_SAR] ->
  gen_inst_x64code (IMMC_INST t (Some d) (Some f) (Some g)) st = Ok (cs, st') ->
  sources f g s -> destination d s ->
  value m f = Some vf -> value m g = Some vg ->
  (t = IMMC_INST_SAR -> operand_unsigned f = true -> vf < 2 ^ (nbits s - 1)) ->
  binop t (operand_unsigned f) s vf vg = Some r ->
  exists m', runs e cs m (Next m') /\ value m' d = result_in d s r /\ changes_only (RAX :: regs_of [d; f]) m m'.
Proof.
  intros Ht H Hsrc (Rd & Wd) Vf Vg Hsar Hr.
  assert (exists x a, ((t = IMMC_INST_SAL /\ x = X64_INST_SALX /\ a = Sal) \/ (t = IMMC_INST_SAR /\ x = X64_INST_SARX /\ a = Sar))
          /\ gen_inst_x64code (IMMC_INST t (Some d) (Some f) (Some g)) st = gen_shrot x (Some d) (Some f) (Some g) st) as (x & a & A & E).
  { destruct Ht as [<- | [<- | []]]; do 2 eexists; split; [left; auto | reflexivity | right; auto | reflexivity]. }
  rewrite E in H. clear E. unfold gen_shrot in H. cbn [deref bind] in H.
  destruct (ope_real f) as [xf | | | |] eqn:Rf; cbn [bind] in H; try discriminate.
  destruct g as [| | | | | sg i |]; try discriminate.
  destruct (two_sources x None f (IMMC_OPERAND_INT sg i)) as [[[cs1 ss] acc] | | | |] eqn:T; cbn [bind] in H; try discriminate.
  destruct d as [| sd rd | | | | |]; try contradiction. clear Rd.
  unfold ope_real in H. cbn [ope_reg deref bind] in H.
  destruct (CALLER (reg_id rd)) as [xd | | | |] eqn:Cd; cbn [bind] in H; try discriminate.
  unfold ope_unsigned in H. cbn [ope_reg deref bind] in H. apply finish_ok in H. subst cs.
  pose proof (caller_machine _ _ Cd) as Md.
  cbn [operand_size operand_unsigned] in *. destruct (suffix_size sd) as [zd |] eqn:Zd; [| contradiction].
  cbn [value] in Vg. injection Vg as <-.
  destruct (two_sources_prepare e x None f _ cs1 ss acc s m vf _ T Hsrc (or_introl eq_refl) Vf eq_refl)
    as (pre & src & o & m1 & -> & Ss & R1 & M1 & A1 & Ho & Sb & _ & Hacc & O1 & _).
  assert (0 <= lit_value i < nbits s) as Hn.
  { destruct A as [(-> & _) | (-> & _)]; cbn in Hr; destruct ((0 <=? lit_value i) && (lit_value i <? nbits s)) eqn:B;
      try discriminate; lia. }
  assert (src = X64_OPERAND_INT ss i) as ->.
  { unfold two_sources in T. rewrite Rf in T. cbn [bind] in T. destruct (ope_unsigned f); cbn [bind] in T; try discriminate.
    okinv T. injection T as T2 T3 T4.
    clear - T2 T3 T4.
    apply (f_equal (@rev _)) in T2. rewrite !rev_app_distr in T2. cbn in T2. injection T2 as T2 _ _. congruence. }
  set (v' := match a with Sal => Z.shiftl (get (regs m1) s (reg_of acc)) (lit_value i)
                        | Sar => Z.shiftr (signed s (get (regs m1) s (reg_of acc))) (lit_value i)
                        | Shr => Z.shiftr (get (regs m1) s (reg_of acc)) (lit_value i) end).
  set (m2 := set_arith m1 (put (regs m1) s (reg_of acc) v')).
  assert (runs e [X64_INST x (Some (X64_OPERAND_INT ss i)) (Some (X64_OPERAND_REG ss acc))] m1 (Next m2)) as R2.
  { replace (Next m2) with (exec e (Shift a s (lit_value i mod 256) (reg_of acc)) m1).
    - apply runs_one.
      assert (mnemonic_size (Some (X64_OPERAND_INT ss i)) (Some (X64_OPERAND_REG ss acc)) = Some s) as Hm by exact Ss.
      assert (imm_fits S1 (lit_value i) = true) as Hf by (unfold imm_fits; destruct s; cbn in Hn |- *; lia).
      destruct A as [(_ & -> & ->) | (_ & -> & ->)]; cbn [decode]; rewrite Hm; unfold decode_shift;
        rewrite (reg_operand_same s _ acc Ss), Hf; reflexivity.
    - cbn [exec]. unfold m2, v'. rewrite (Z.mod_small (lit_value i) 256) by (destruct s; cbn in Hn; lia).
      rewrite (Z.mod_small (lit_value i)) by (destruct s; cbn in Hn |- *; lia). reflexivity. }
  assert (low s (rget (regs m2) (reg_of acc)) = low s r) as V2.
  { unfold m2; cbn [regs set_arith]. rewrite low_put by lia. unfold v'.
    destruct A as [(-> & _ & ->) | (-> & _ & ->)]; cbn in Hr;
      destruct ((0 <=? lit_value i) && (lit_value i <? nbits s)); try discriminate; injection Hr as <-.
    - apply low_shiftl; [lia |]. unfold get. rewrite low_low. exact A1.
    - do 2 f_equal. unfold get. rewrite signed_low, (signed_of_low s _ vf A1).
      destruct (operand_unsigned f) eqn:U; [| reflexivity]. cbn [interp].
      specialize (Hsar eq_refl eq_refl).
      assert (0 <= vf) as Hpos.
      { destruct f as [| sf rf | | | | |]; cbn in Rf; try discriminate; try (cbn in U; discriminate); cbn in Hsrc; try tauto.
        cbn [value] in Vf. destruct (suffix_size sf); [| discriminate]. destruct (machine_reg (reg_id rf)); [| discriminate].
        injection Vf as <-. cbn in U. rewrite U. cbn. apply low_range. }
      pose proof (pow_half s). rewrite low_small by lia. apply signed_small. lia. }
  destruct (append_mov_runs e ss s acc (xsuffix_of (IMMC_OPERAND_REG sd rd)) zd xd (reg_unsigned rd) m2 Ss
              (size_of_suffix (IMMC_OPERAND_REG sd rd) zd Zd) Wd) as (m3 & R3 & M3 & _ & V3 & O3 & _ & _).
  exists m3. split. { repeat (eapply runs_app; [try eassumption |]); eassumption. }
  split.
  { cbn [value]. unfold result_in. cbn [operand_size operand_unsigned]. rewrite Zd, Md. f_equal. apply interp_of_low.
    rewrite V3. f_equal. apply interp_of_low. exact V2. }
  split; [rewrite M3; exact M1 |]. intros q Hq. cbn [In regs_of flat_map operand_reg] in Hq. rewrite Md in Hq.
  assert (q <> RAX) as NA by (intros ->; apply Hq; auto).
  assert (q <> reg_of xd) as ND by (intros ->; apply Hq; right; left; reflexivity).
  assert (q <> reg_of acc) as NR by (intros ->; apply Hq; rewrite Hacc; cbn; auto).
  rewrite O3 by auto. unfold m2; cbn [regs set_arith]. rewrite rget_put_other by exact NR.
  apply O1; auto. cbn. discriminate.
Qed.

(** * Comparisons *)
Definition condition_of (t : insttype) (u : bool) : option cc :=
  match t with
  | IMMC_INST_SETEQ | IMMC_INST_JEQ => Some E
  | IMMC_INST_SETNEQ | IMMC_INST_JNEQ => Some NE
  | IMMC_INST_SETGT | IMMC_INST_JGT => Some (if u then A else G)
  | IMMC_INST_SETGEQ | IMMC_INST_JGEQ => Some (if u then AE else GE)
  | IMMC_INST_SETLT | IMMC_INST_JLT => Some (if u then B else L)
  | IMMC_INST_SETLEQ | IMMC_INST_JLEQ => Some (if u then BE else LE)
  | _ => None
  end.
Lemma condition_correct t u s a b c p q :
  condition_of t u = Some c -> low s p = low s a -> low s q = low s b ->
  compare t u s a b = Some (cond c (cmp_flags s p q)).
Proof.
  intros H Hp Hq.
  assert (signed s p = signed s a) as Sp by (apply signed_of_low, Hp).
  assert (signed s q = signed s b) as Sq by (apply signed_of_low, Hq).
  pose proof (cmp_zero s p q) as Z0. pose proof (cmp_signed s p q) as SG.
  assert (cf (cmp_flags s p q) = (low s a <? low s b)) as CF by (cbn; rewrite Hp, Hq; reflexivity).
  rewrite Hp, Hq in Z0. rewrite Sp, Sq in SG.
  assert (forall x y : Z, (x =? y) = (low s a =? low s b) \/ True) by auto.
  assert ((low s a =? low s b) = (signed s a =? signed s b)) as EQ.
  { pose proof (low_signed_inj s a b). destruct (low s a =? low s b) eqn:E1, (signed s a =? signed s b) eqn:E2; lia. }
  destruct t; cbn in H; try discriminate; injection H as <-; cbn [compare]; destruct u; cbn [cond interp];
    rewrite ?Z0, ?SG, ?CF, ?EQ; f_equal; try lia;
    try (rewrite <- EQ; lia).
Qed.

Lemma cmp_prepare e f g cs ss acc s m vf vg :
  two_sources X64_INST_CMPX None f g = Ok (cs, ss, acc) -> sources f g s ->
  value m f = Some vf -> value m g = Some vg ->
  exists m1 p q, runs e cs m (Next m1) /\ X64Isa.mem m1 = X64Isa.mem m
    /\ fl m1 = Some (cmp_flags s p q) /\ low s p = low s vf /\ low s q = low s vg
    /\ operand_reg f = Some (reg_of acc)
    /\ (forall r, ~ In r (RAX :: regs_of [f; g]) -> rget (regs m1) r = rget (regs m) r)
    /\ value m1 f = value m f /\ (operand_reg g <> None -> value m1 g = value m g)
    /\ size_of ss = Some s /\ low s (rget (regs m1) (reg_of acc)) = low s vf.
Proof.
  intros T Hsrc Vf Vg.
  destruct (two_sources_prepare e _ None f g cs ss acc s m vf vg T Hsrc (or_introl eq_refl) Vf Vg)
    as (pre & src & o & m1 & -> & Ss & R1 & M1 & A1 & Ho & Sb & (v & Hv & Lv) & Hacc & O1 & G1).
  exists (mkstate (regs m1) (Some (cmp_flags s (get (regs m1) s (reg_of acc)) v)) (X64Isa.mem m1)),
    (get (regs m1) s (reg_of acc)), v.
  cbn [regs fl X64Isa.mem].
  split.
  { eapply runs_app; [exact R1 |].
    match goal with |- runs _ _ _ (Next ?x) => replace (Next x) with (exec e (Alu Cmp s o (reg_of acc)) m1) end.
    - apply runs_one.
      assert (mnemonic_size (Some src) (Some (X64_OPERAND_REG ss acc)) = Some s) as Hm by exact Ss.
      cbn [decode]. rewrite Hm. unfold decode_alu. rewrite (reg_operand_same s _ acc Ss), Ho. destruct s; reflexivity.
    - cbn [exec]. rewrite Hv. reflexivity. }
  split; [exact M1 |]. split; [reflexivity |].
  split; [unfold get; rewrite low_low; exact A1 |]. split; [exact Lv |]. split; [exact Hacc |].
  split.
  { intros r Hr. cbn [In regs_of flat_map] in Hr. apply O1.
    - intros ->. apply Hr. rewrite Hacc. cbn. auto.
    - intros ->. apply Hr. auto.
    - intros Eg. apply Hr. right. rewrite Eg. apply in_or_app. right. cbn. auto. }
  destruct Hsrc as (Rf & Rg & Hc & _ & _ & _ & Same).
  destruct f as [| sf rf | | | | |]; try contradiction.
  assert (value m1 (IMMC_OPERAND_REG sf rf) = value m (IMMC_OPERAND_REG sf rf)) as VF.
  { cbn [value operand_reg] in *. destruct (suffix_size sf) as [zf |] eqn:Zf; [| discriminate]. rewrite Hacc in *.
    injection Vf as <-. f_equal. apply interp_of_low.
    unfold common in Hc. cbn [operand_size] in Hc. rewrite Zf in Hc. destruct (operand_size g) as [zg |]; [| discriminate].
    injection Hc as <-. pose proof (larger_l zf zg) as Lf.
    rewrite <- (low_low_le zf (larger zf zg) (rget (regs m1) (reg_of acc)) Lf), A1, (low_low_le _ _ _ Lf).
    rewrite low_interp. reflexivity. }
  split; [exact VF |]. split; [| split; [exact Ss | exact A1]].
  intros Hg. destruct (operand_reg g) as [qg |] eqn:Eg; [| congruence].
  destruct (reg_dec qg (reg_of acc)) as [-> | N].
  - (* both sources in the same register *)
    rewrite Hacc in Same. specialize (Same eq_refl).
    destruct g as [| sg rg | | | | |]; try contradiction; try (cbn in Eg; discriminate).
    cbn [operand_reg operand_size value] in *. rewrite Hacc, Eg in *. rewrite <- Same in *.
    destruct (suffix_size sf) as [zf |]; [| discriminate].
    injection VF as VF. f_equal. cbn [regs].
    apply interp_of_low. rewrite <- (low_interp (reg_unsigned rf) zf (rget (regs m1) (reg_of acc))), VF. apply low_interp.
  - transitivity (value m1 g); [destruct g; reflexivity |]. apply G1; congruence.
Qed.

Definition is_setcmp (t : insttype) : Prop :=
  In t [IMMC_INST_SETEQ; IMMC_INST_SETNEQ; IMMC_INST_SETGT; IMMC_INST_SETGEQ; IMMC_INST_SETLT; IMMC_INST_SETLEQ].
Definition is_jcmp (t : insttype) : Prop :=
  In t [IMMC_INST_JEQ; IMMC_INST_JNEQ; IMMC_INST_JGT; IMMC_INST_JGEQ; IMMC_INST_JLT; IMMC_INST_JLEQ].

Lemma setcmp_correct t d f g st cs st' e m s vf vg :
  is_setcmp t ->
  gen_inst_x64code (IMMC_INST t (Some d) (Some f) (Some g)) st = Ok (cs, st') ->
  sources f g s -> is_register d -> operand_size d <> None -> operand_reg d = operand_reg f ->
  value m f = Some vf -> value m g = Some vg ->
  exists m' b, runs e cs m (Next m') /\ compare t (operand_unsigned f) s vf vg = Some b
    /\ value m' d = result_in d S1 (if b then 1 else 0)
    /\ changes_only (RAX :: regs_of [d; f; g]) m m'
    /\ (~ In (operand_reg g) [None; operand_reg d] -> value m' g = value m g).
Proof.
  intros Ht H Hsrc Rd Zd Edf Vf Vg.
  assert (exists x c, gen_inst_x64code (IMMC_INST t (Some d) (Some f) (Some g)) st = gen_setcmp x (Some d) (Some f) (Some g) st
           /\ condition_of t (operand_unsigned f) = Some c
           /\ forall o q, reg_operand S1 o = Some q -> decode x None (Some o) = Some (Set_cc c q)) as (x & c & E & C & D).
  { destruct Hsrc as (Rf & _). destruct f as [| sf rf | | | | |]; try contradiction.
    cbn [operand_unsigned].
    repeat (destruct Ht as [<- | Ht]; [
      do 2 eexists; split; [cbn [gen_inst_x64code by_sign deref bind ope_unsigned ope_reg]; reflexivity |];
      split; [reflexivity |]; intros o q Ho; destruct (reg_unsigned rf); cbn [decode condition]; rewrite Ho; reflexivity |]).
    contradiction. }
  rewrite E in H. clear E. unfold gen_setcmp in H. cbn [deref bind] in H.
  destruct (two_sources X64_INST_CMPX None f g) as [[[cs1 ss] acc] | | | |] eqn:T; cbn [bind] in H; try discriminate.
  destruct d as [| sd rd | | | | |]; try contradiction. clear Rd.
  unfold ope_real in H. cbn [ope_reg deref bind] in H.
  destruct (CALLER (reg_id rd)) as [xd | | | |] eqn:Cd; cbn [bind] in H; try discriminate.
  apply finish_ok in H. subst cs.
  pose proof (caller_machine _ _ Cd) as Md.
  cbn [operand_size operand_unsigned operand_reg] in *. destruct (suffix_size sd) as [zd |] eqn:Ez; [| contradiction].
  destruct (cmp_prepare e f g cs1 ss acc s m vf vg T Hsrc Vf Vg)
    as (m1 & p & q & R1 & M1 & F1 & Lp & Lq & Hacc & O1 & _ & G1 & _ & _).
  assert (acc = xd) as -> by (apply reg_of_inj; congruence).
  pose proof (condition_correct t _ s vf vg c p q C Lp Lq) as Cmp.
  set (b := cond c (cmp_flags s p q)) in *.
  set (m2 := set_regs m1 (put (regs m1) S1 (reg_of xd) (if b then 1 else 0))).
  assert (runs e [X64_INST x None (Some (X64_OPERAND_REG X64_SUFFIX_BYTE xd))] m1 (Next m2)) as R2.
  { replace (Next m2) with (exec e (Set_cc c (reg_of xd)) m1).
    - apply runs_one. apply D. reflexivity.
    - cbn [exec]. rewrite F1. reflexivity. }
  assert (no_unsigned_4_to_8 true S1 zd) as W by (intros (_ & ? & _); discriminate).
  destruct (append_mov_runs e X64_SUFFIX_BYTE S1 xd (xsuffix_of (IMMC_OPERAND_REG sd rd)) zd xd true m2 eq_refl
              (size_of_suffix (IMMC_OPERAND_REG sd rd) zd Ez) W) as (m3 & R3 & M3 & _ & V3 & O3 & _ & _).
  exists m3, b. split. { eapply runs_app; [exact R1 |]. eapply runs_app; [exact R2 | exact R3]. }
  split; [exact Cmp |].
  split.
  { cbn [value]. unfold result_in. cbn [operand_size operand_unsigned]. rewrite Ez, Md. f_equal. apply interp_of_low.
    rewrite V3. f_equal. unfold m2; cbn [regs set_regs].
    transitivity (interp true S1 (if b then 1 else 0)).
    - apply interp_of_low, low_put. lia.
    - destruct b, (reg_unsigned rd); reflexivity. }
  split.
  - split; [rewrite M3; exact M1 |]. intros r Hr. cbn [In regs_of flat_map operand_reg] in Hr. rewrite Md in Hr.
    assert (r <> RAX) as NA by (intros ->; apply Hr; auto).
    assert (r <> reg_of xd) as ND by (intros ->; apply Hr; right; left; reflexivity).
    rewrite O3 by auto. unfold m2; cbn [regs set_regs]. rewrite rget_put_other by exact ND. apply O1.
    cbn [In regs_of flat_map]. intros [Hi | Hi]; [congruence |]. apply Hr. right. right. exact Hi.
  - intros Hg. cbn [In] in Hg. rewrite <- (G1 ltac:(intros Eg; apply Hg; left; congruence)).
    destruct Hsrc as (_ & Rg & _).
    destruct g as [| sg rg | | | | |]; try contradiction; try (cbn in Hg; exfalso; apply Hg; left; reflexivity).
    cbn [value operand_reg] in *. destruct (suffix_size sg); [| reflexivity].
    destruct (machine_reg (reg_id rg)) as [qg |] eqn:Mg; [| reflexivity].
    do 2 f_equal. assert (qg <> reg_of xd) as ND by (intros ->; apply Hg; right; left; congruence).
    rewrite O3.
    + unfold m2; cbn [regs set_regs]. apply rget_put_other, ND.
    + exact ND.
    + intros _ ->. apply machine_reg_not_special in Mg. tauto.
Qed.

Lemma jcmp_correct t l f g st cs st' e m s vf vg :
  is_jcmp t ->
  gen_inst_x64code (IMMC_INST t (Some (IMMC_OPERAND_LABEL l)) (Some f) (Some g)) st = Ok (cs, st') ->
  sources f g s -> value m f = Some vf -> value m g = Some vg ->
  exists m' b, compare t (operand_unsigned f) s vf vg = Some b
    /\ runs e cs m (if b then Goto l m' else Next m')
    /\ changes_only (RAX :: regs_of [f; g]) m m' /\ value m' f = value m f
    /\ (operand_reg g <> None -> value m' g = value m g).
Proof.
  intros Ht H Hsrc Vf Vg.
  assert (exists x c, gen_inst_x64code (IMMC_INST t (Some (IMMC_OPERAND_LABEL l)) (Some f) (Some g)) st
                      = gen_jcmp x (Some (IMMC_OPERAND_LABEL l)) (Some f) (Some g) st
           /\ condition_of t (operand_unsigned f) = Some c
           /\ decode x None (Some (X64_OPERAND_JLABEL l)) = Some (Jcc c l)) as (x & c & E & C & D).
  { destruct Hsrc as (Rf & _). destruct f as [| sf rf | | | | |]; try contradiction.
    cbn [operand_unsigned].
    repeat (destruct Ht as [<- | Ht]; [
      do 2 eexists; split; [cbn [gen_inst_x64code by_sign deref bind ope_unsigned ope_reg]; reflexivity |];
      split; [reflexivity |]; destruct (reg_unsigned rf); reflexivity |]).
    contradiction. }
  rewrite E in H. clear E. unfold gen_jcmp in H. cbn [deref bind ope_label] in H.
  destruct (two_sources X64_INST_CMPX None f g) as [[[cs1 ss] acc] | | | |] eqn:T; cbn [bind] in H; try discriminate.
  apply finish_ok in H. subst cs.
  destruct (cmp_prepare e f g cs1 ss acc s m vf vg T Hsrc Vf Vg)
    as (m1 & p & q & R1 & M1 & F1 & Lp & Lq & Hacc & O1 & VF & G1 & _ & _).
  pose proof (condition_correct t _ s vf vg c p q C Lp Lq) as Cmp.
  exists m1, (cond c (cmp_flags s p q)). split; [exact Cmp |].
  split; [| split; [split; [exact M1 | exact O1] | split; [exact VF | exact G1]]].
  eapply runs_app; [exact R1 |].
  match goal with |- runs _ _ _ ?x => replace x with (exec e (Jcc c l) m1) end.
  - apply runs_one, D.
  - cbn [exec]. rewrite F1. reflexivity.
Qed.
