(** The code generated for one instruction does what the instruction means: loads, stores, arguments. *)
From Coq Require Import Lia ZifyBool.
From Verif Require Import Base X64genModel X64Decode X64Isa OpSpec IsaProofs IsaMemProofs X64genProofs X64genProofs2.
Open Scope Z_scope.

Lemma load_value_correct d f st cs st' e m zd v :
  gen_inst_x64code (IMMC_INST IMMC_INST_LOAD (Some d) (Some f) None) st = Ok (cs, st') ->
  is_register d -> operand_size d = Some zd ->
  is_register_or_literal f -> operand_size f <> None -> widens_operand f zd -> loadable f zd ->
  value m f = Some v ->
  exists m', runs e cs m (Next m') /\ value m' d = Some (interp (operand_unsigned d) zd v)
    /\ changes_only (RAX :: regs_of [d]) m m'.
Proof.
  cbn [gen_inst_x64code]. intros H Rd Zd Rf Zf W Ld V.
  destruct d as [| sd rd | | | | |]; try contradiction. clear Rd. cbn [operand_size operand_unsigned] in *.
  unfold gen_load in H. cbn [deref bind] in H. unfold ope_real in H at 1. cbn [ope_reg deref bind] in H.
  destruct (CALLER (reg_id rd)) as [xd | | | |] eqn:Cd; cbn [bind] in H; try discriminate.
  pose proof (caller_machine _ _ Cd) as Md. pose proof (size_of_suffix (IMMC_OPERAND_REG sd rd) zd Zd) as Sd.
  destruct f as [| sf rf | | | | sf i |]; try contradiction.
  - unfold ope_real, ope_unsigned in H. cbn [ope_reg deref bind] in H.
    destruct (CALLER (reg_id rf)) as [xf | | | |] eqn:Cf; cbn [bind] in H; try discriminate.
    apply finish_ok in H. subst cs. pose proof (caller_machine _ _ Cf) as Mf.
    cbn [operand_size value] in *. unfold widens_operand in W. cbn [operand_size] in W.
    destruct (suffix_size sf) as [zf |] eqn:Ez; [| contradiction]. rewrite Mf in V. injection V as <-.
    destruct (append_mov_runs e _ zf xf _ zd xd (reg_unsigned rf) m (size_of_suffix (IMMC_OPERAND_REG sf rf) zf Ez) Sd W)
      as (m' & R & M & _ & V & O & _).
    exists m'. split; [exact R |]. rewrite Zd, Md. split; [f_equal; apply interp_of_low; exact V |].
    split; [exact M |]. intros q Hq. cbn [In regs_of flat_map operand_reg] in Hq. rewrite Md in Hq.
    apply O; [| intros _]; intros ->; apply Hq; [right; left; reflexivity | left; reflexivity].
  - apply finish_ok in H. subst cs. cbn [value] in *. injection V as <-.
    eexists. split; [eapply run_mov_imm; [exact Sd | exact Ld] |]. cbn [regs set_regs X64Isa.mem].
    rewrite Zd, Md. split.
    + f_equal. apply interp_of_low. rewrite low_put by lia. apply low_low.
    + split; [reflexivity |]. intros q Hq. apply rget_put_other. intros ->. apply Hq. right.
      cbn [regs_of flat_map operand_reg]. rewrite Md. left. reflexivity.
Qed.

Lemma location_address e m o a x :
  location e m o = Some a -> 
  (match o with
   | IMMC_OPERAND_PTR _ => exists r, ope_real o = Ok r /\ x = X64_OPERAND_PTR r
   | IMMC_OPERAND_MEM z => x = X64_OPERAND_MEM z
   | IMMC_OPERAND_LABEL n => x = X64_OPERAND_LABEL n
   | _ => False
   end) ->
  exists ad, addr_operand x = Some ad /\ address e m ad = Some a /\ (forall s f, operand s f x = Some (Mem ad))
    /\ suffix_bearing (Some x) = None /\ (forall sf r, x <> X64_OPERAND_REG sf r).
Proof.
  intros L X. destruct o as [| | r | z | n | |]; cbn [location] in L; try contradiction.
  - destruct X as (xr & Hr & ->). unfold ope_real in Hr. cbn [ope_reg deref bind] in Hr.
    rewrite (caller_machine _ _ Hr) in L. injection L as <-.
    eexists. split; [reflexivity |]. split; [cbn; rewrite Z.add_0_r; reflexivity |]. repeat split; discriminate.
  - subst x. injection L as <-. eexists. split; [reflexivity |]. split; [reflexivity |]. repeat split; discriminate.
  - subst x. eexists. split; [reflexivity |]. split; [exact L |]. repeat split; discriminate.
Qed.

Lemma load_memory_correct d f st cs st' e m zd a w :
  gen_inst_x64code (IMMC_INST IMMC_INST_LOAD (Some d) (Some f) None) st = Ok (cs, st') ->
  is_register d -> operand_size d = Some zd -> location e m f = Some a ->
  byte_memory (X64Isa.mem m) -> accessible (X64Isa.mem m) a (size_bytes zd) -> holds (X64Isa.mem m) a (size_bytes zd) w ->
  exists m', runs e cs m (Next m') /\ value m' d = Some (interp (operand_unsigned d) zd w)
    /\ changes_only (regs_of [d]) m m'.
Proof.
  cbn [gen_inst_x64code]. intros H Rd Zd L BM Ac Ho.
  destruct d as [| sd rd | | | | |]; try contradiction. clear Rd. cbn [operand_size operand_unsigned] in *.
  unfold gen_load in H. cbn [deref bind] in H. unfold ope_real in H at 1. cbn [ope_reg deref bind] in H.
  destruct (CALLER (reg_id rd)) as [xd | | | |] eqn:Cd; cbn [bind] in H; try discriminate.
  pose proof (caller_machine _ _ Cd) as Md. pose proof (size_of_suffix (IMMC_OPERAND_REG sd rd) zd Zd) as Sd.
  assert (exists x, finish [X64_INST X64_INST_MOVX (Some x) (Some (X64_OPERAND_REG (xsuffix_of (IMMC_OPERAND_REG sd rd)) xd))] st = Ok (cs, st')
          /\ match f with
             | IMMC_OPERAND_PTR _ => exists r, ope_real f = Ok r /\ x = X64_OPERAND_PTR r
             | IMMC_OPERAND_MEM z => x = X64_OPERAND_MEM z
             | IMMC_OPERAND_LABEL n => x = X64_OPERAND_LABEL n
             | _ => False
             end) as (x & H' & X).
  { destruct f as [| | r | z | n | |]; try (cbn [location] in L; discriminate).
    - destruct (ope_real (IMMC_OPERAND_PTR r)) as [xr | | | |]; cbn [bind] in H; try discriminate. eauto.
    - eauto.
    - eauto. }
  destruct (location_address e m f a x L X) as (ad & A1 & A2 & A3 & A4 & A5).
  apply finish_ok in H'. subst cs.
  pose proof (load_holds _ _ _ _ Ac Ho BM) as Hl.
  exists (set_regs m (put (regs m) zd (reg_of xd) w)). cbn [regs set_regs X64Isa.mem value].
  split.
  { replace (Next _) with (exec e (Mov zd (Mem ad) (Reg (reg_of xd))) m).
    - apply runs_one.
      assert (mnemonic_size (Some x) (Some (X64_OPERAND_REG (xsuffix_of (IMMC_OPERAND_REG sd rd)) xd)) = Some zd) as Hm by exact Sd.
      cbn [decode]. rewrite Hm. cbn [decode_mov]. rewrite (reg_operand_same zd _ xd Sd), A3. reflexivity.
    - cbn [exec read]. rewrite A2, Hl. reflexivity. }
  rewrite Zd, Md. split.
  - f_equal. apply interp_of_low. apply low_put. lia.
  - split; [reflexivity |]. intros q Hq. apply rget_put_other. intros ->. apply Hq.
    cbn [regs_of flat_map operand_reg]. rewrite Md. left. reflexivity.
Qed.

Lemma addr_correct d f st cs st' e m a :
  gen_inst_x64code (IMMC_INST IMMC_INST_ADDR (Some d) (Some f) None) st = Ok (cs, st') ->
  is_register d -> operand_size d = Some S8 -> location e m f = Some a ->
  exists m', runs e cs m (Next m') /\ value m' d = Some (interp (operand_unsigned d) S8 a)
    /\ changes_only (regs_of [d]) m m'.
Proof.
  cbn [gen_inst_x64code]. intros H Rd Zd L.
  destruct d as [| sd rd | | | | |]; try contradiction. clear Rd. cbn [operand_size operand_unsigned] in *.
  unfold gen_addr in H. cbn [deref bind] in H. unfold ope_real in H at 1. cbn [ope_reg deref bind] in H.
  destruct (CALLER (reg_id rd)) as [xd | | | |] eqn:Cd; cbn [bind] in H; try discriminate.
  pose proof (caller_machine _ _ Cd) as Md. pose proof (size_of_suffix (IMMC_OPERAND_REG sd rd) S8 Zd) as Sd.
  assert (exists x, finish [X64_INST X64_INST_LEAX (Some x) (Some (X64_OPERAND_REG (xsuffix_of (IMMC_OPERAND_REG sd rd)) xd))] st = Ok (cs, st')
          /\ match f with
             | IMMC_OPERAND_PTR _ => exists r, ope_real f = Ok r /\ x = X64_OPERAND_PTR r
             | IMMC_OPERAND_MEM z => x = X64_OPERAND_MEM z
             | IMMC_OPERAND_LABEL n => x = X64_OPERAND_LABEL n
             | _ => False
             end) as (x & H' & X).
  { destruct f as [| | r | z | n | |]; try discriminate; eauto. }
  destruct (location_address e m f a x L X) as (ad & A1 & A2 & A3 & A4 & A5).
  apply finish_ok in H'. subst cs.
  exists (set_regs m (put (regs m) S8 (reg_of xd) a)). cbn [regs set_regs X64Isa.mem value].
  split.
  { replace (Next _) with (exec e (Lea S8 ad (reg_of xd)) m).
    - apply runs_one.
      assert (mnemonic_size (Some x) (Some (X64_OPERAND_REG (xsuffix_of (IMMC_OPERAND_REG sd rd)) xd)) = Some S8) as Hm by exact Sd.
      cbn [decode]. rewrite Hm, A1, (reg_operand_same S8 _ xd Sd). reflexivity.
    - cbn [exec]. rewrite A2. reflexivity. }
  rewrite Zd, Md. split.
  - f_equal. apply interp_of_low. apply low_put. lia.
  - split; [reflexivity |]. intros q Hq. apply rget_put_other. intros ->. apply Hq.
    cbn [regs_of flat_map operand_reg]. rewrite Md. left. reflexivity.
Qed.

(** moves to memory *)
Lemma run_store e ss s src x m o ad a v :
  size_of ss = Some s -> suffix_bearing (Some src) = Some ss ->
  operand s (imm_fits s) src = Some o -> (forall b, o <> Mem b) -> (exists w, read e s o m = Some w /\ low s w = low s v) ->
  addr_operand x = Some ad -> address e m ad = Some a -> suffix_bearing (Some x) = None -> (forall sf r, x <> X64_OPERAND_REG sf r) ->
  accessible (X64Isa.mem m) a (size_bytes s) ->
  exists M', runs e [X64_INST X64_INST_MOVX (Some src) (Some x)] m (Next (set_mem m M')) /\ written (X64Isa.mem m) a (size_bytes s) v M'.
Proof.
  intros Ss Sb Ho Nm (w & Hr & Hw) A1 A2 A4 A5 Ac.
  destruct (store_written (X64Isa.mem m) s a w Ac) as (M' & St & Wr).
  exists M'. split; [| apply (written_low _ s a w v M' Hw Wr)].
  replace (Next (set_mem m M')) with (exec e (Mov s o (Mem ad)) m).
  - apply runs_one.
    assert (mnemonic_size (Some src) (Some x) = Some s) as Hm.
    { unfold mnemonic_size, one_suffix. rewrite A4, Sb. exact Ss. }
    cbn [decode]. rewrite Hm.
    assert (decode_mov s src x = Some (Mov s o (Mem ad))) as Hd.
    { unfold decode_mov. rewrite A1, Ho. destruct x; try (cbn in A1; discriminate); destruct o; try reflexivity;
        try (exfalso; apply (Nm a0); reflexivity). }
    exact Hd.
  - cbn [exec]. rewrite Hr. cbn [write]. rewrite A2, St. reflexivity.
Qed.

Lemma store_correct d f st cs st' e m z a v :
  gen_inst_x64code (IMMC_INST IMMC_INST_STORE (Some d) (Some f) None) st = Ok (cs, st') ->
  is_register_or_literal f -> operand_size f = Some z -> encodable z f ->
  location e m d = Some a -> accessible (X64Isa.mem m) a (size_bytes z) ->
  value m f = Some v ->
  exists m', runs e cs m (Next m') /\ regs m' = regs m /\ written (X64Isa.mem m) a (size_bytes z) v (X64Isa.mem m').
Proof.
  cbn [gen_inst_x64code]. intros H Rf Zf En L Ac V. unfold gen_store in H. cbn [deref bind] in H.
  match type of H with bind ?x _ = _ => destruct x as [x1 | | | |] eqn:X; cbn [bind] in H; try discriminate end.
  match type of H with bind ?x _ = _ => destruct x as [src | | | |] eqn:Src; cbn [bind] in H; try discriminate end.
  apply finish_ok in H. subst cs.
  assert (match d with
             | IMMC_OPERAND_PTR _ => exists r, ope_real d = Ok r /\ x1 = X64_OPERAND_PTR r
             | IMMC_OPERAND_MEM z => x1 = X64_OPERAND_MEM z
             | IMMC_OPERAND_LABEL n => x1 = X64_OPERAND_LABEL n
             | _ => False
             end) as X'.
  { destruct d as [| | r | dz | n | |]; try discriminate.
    - destruct (ope_real (IMMC_OPERAND_PTR r)) as [xr | | | |]; cbn [bind] in X; try discriminate. okinv X. eauto.
    - okinv X. congruence.
    - okinv X. congruence. }
  destruct (location_address e m d a x1 L X') as (ad & A1 & A2 & A3 & A4 & A5).
  assert (size_of (xsuffix_of f) = Some z) as Sf.
  { apply size_of_suffix. destruct f; try contradiction; exact Zf. }
  assert (suffix_bearing (Some src) = Some (xsuffix_of f) /\ exists o, operand z (imm_fits z) src = Some o
          /\ (forall b, o <> Mem b) /\ (exists w, read e z o m = Some w /\ low z w = low z v)) as (Sb & o & Ho & Nm & Hw).
  { destruct f as [| sf rf | | | | sf i |]; try contradiction.
    - unfold ope_real in Src. cbn [ope_reg deref bind] in Src.
      destruct (CALLER (reg_id rf)) as [xf | | | |] eqn:Cf; cbn [bind] in Src; try discriminate. okinv Src. subst src.
      split; [reflexivity |]. exists (Reg (reg_of xf)). unfold operand. rewrite (reg_operand_same z _ xf Sf).
      split; [reflexivity |]. split; [discriminate |]. eexists. split; [apply read_reg |].
      cbn [operand_size value] in *. rewrite Zf, (caller_machine _ _ Cf) in V. injection V as <-.
      unfold get. rewrite low_low, low_interp. reflexivity.
    - okinv Src. subst src. split; [reflexivity |]. exists (Imm (lit_value i)). cbn [operand encodable value] in *. rewrite En.
      injection V as <-.
      split; [reflexivity |]. split; [discriminate |]. eexists. split; [reflexivity |]. apply low_low. }
  destruct (run_store e (xsuffix_of f) z src x1 m o ad a v) as (M' & R & W); auto.
  exists (set_mem m M'). split; [exact R |]. split; [reflexivity | exact W].
Qed.

(** a store followed by a load of the same place and size *)
Lemma store_load_correct d f l st cs st1 cs2 st2 e m z a v :
  gen_inst_x64code (IMMC_INST IMMC_INST_STORE (Some l) (Some f) None) st = Ok (cs, st1) ->
  gen_inst_x64code (IMMC_INST IMMC_INST_LOAD (Some d) (Some l) None) st1 = Ok (cs2, st2) ->
  is_register_or_literal f -> operand_size f = Some z -> encodable z f ->
  is_register d -> operand_size d = Some z ->
  location e m l = Some a -> accessible (X64Isa.mem m) a (size_bytes z) -> byte_memory (X64Isa.mem m) ->
  value m f = Some v ->
  exists m', runs e (cs ++ cs2) m (Next m') /\ value m' d = Some (interp (operand_unsigned d) z v)
    /\ (forall q, ~ In q (regs_of [d]) -> rget (regs m') q = rget (regs m) q)
    /\ written (X64Isa.mem m) a (size_bytes z) v (X64Isa.mem m').
Proof.
  intros H1 H2 Rf Zf En Rd Zd L Ac BM V.
  destruct (store_correct l f st cs st1 e m z a v H1 Rf Zf En L Ac V) as (m1 & R1 & G1 & W1).
  assert (location e m1 l = Some a) as L1 by (unfold location in *; rewrite G1; exact L).
  pose proof (written_byte_memory _ _ _ _ _ BM W1) as BM1.
  pose proof (written_accessible _ _ _ _ _ _ _ W1 Ac) as Ac1.
  pose proof (written_holds _ z a v _ (proj1 Ac) W1) as Ho1.
  destruct (load_memory_correct d l st1 cs2 st2 e m1 z a (low z v) H2 Rd Zd L1 BM1 Ac1 Ho1) as (m2 & R2 & V2 & M2 & O2).
  exists m2. split; [eapply runs_app; eassumption |].
  split; [rewrite V2, interp_low; reflexivity |].
  split; [intros q Hq; rewrite O2, G1 by exact Hq; reflexivity |]. rewrite M2. exact W1.
Qed.

Lemma arg_reg_machine k x : ARG_REG k = Ok x -> argument_reg k = Some (reg_of x).
Proof.
  unfold ARG_REG, reg_at. destruct (k <? 0) eqn:E; [discriminate |]. intros H.
  assert (0 <= k < 6) as Hk.
  { split; [lia |]. destruct (Z_lt_le_dec k 6); [assumption |].
    rewrite (proj2 (nth_error_None ARG_REG_IDS (Z.to_nat k))) in H by (cbn; lia). discriminate. }
  assert (k = 0 \/ k = 1 \/ k = 2 \/ k = 3 \/ k = 4 \/ k = 5) as D by lia.
  repeat (destruct D as [D | D]; [subst k; cbn in H; injection H as <-; reflexivity |]).
  subst k; cbn in H; injection H as <-; reflexivity.
Qed.

(** reading argument [k] into its slot in the frame *)
Lemma ldarg_correct sf r off st cs st' e m z a v :
  gen_inst_x64code (IMMC_INST IMMC_INST_LDARG (Some (IMMC_OPERAND_MEM off)) (Some (IMMC_OPERAND_ARG sf r)) None) st = Ok (cs, st') ->
  suffix_size sf = Some z -> a = low S8 (rget (regs m) RBP - off) ->
  accessible (X64Isa.mem m) a (size_bytes z) -> byte_memory (X64Isa.mem m) -> argument_in m (reg_id r) z v ->
  exists m', runs e cs m (Next m') /\ written (X64Isa.mem m) a (size_bytes z) v (X64Isa.mem m')
    /\ (forall q, q <> R10 -> rget (regs m') q = rget (regs m) q).
Proof.
  cbn [gen_inst_x64code]. intros H Zs Ha Ac BM Arg. unfold gen_ldarg in H. cbn [deref bind ope_reg ope_mem] in H.
  pose proof (size_of_suffix (IMMC_OPERAND_ARG sf r) z Zs) as Ss. set (ss := xsuffix_of (IMMC_OPERAND_ARG sf r)) in *.
  assert (forall src m1, regs m1 = regs m \/ (forall q, q <> R10 -> rget (regs m1) q = rget (regs m) q) ->
            X64Isa.mem m1 = X64Isa.mem m -> low z (rget (regs m1) (reg_of src)) = low z v ->
            exists M', runs e [X64_INST X64_INST_MOVX (Some (X64_OPERAND_REG ss src)) (Some (X64_OPERAND_MEM off))] m1 (Next (set_mem m1 M'))
              /\ written (X64Isa.mem m) a (size_bytes z) v M') as Tail.
  { intros src m1 HR HM HV.
    destruct (run_store e ss z (X64_OPERAND_REG ss src) (X64_OPERAND_MEM off) m1 (Reg (reg_of src)) (Base_disp RBP (- off)) a v)
      as (M' & R & W); auto; try discriminate.
    - unfold operand. rewrite (reg_operand_same z _ src Ss). reflexivity.
    - eexists. split; [apply read_reg |]. unfold get. rewrite low_low. exact HV.
    - cbn. subst a. do 2 f_equal. replace (rbp (regs m1)) with (rget (regs m) RBP); [lia |].
      destruct HR as [-> | HR]; [reflexivity |]. symmetry. apply (HR RBP). discriminate.
    - rewrite HM. exact Ac.
    - exists M'. rewrite HM in W. auto. }
  destruct (reg_id r <? NUM_ARG_REGS) eqn:E.
  - destruct (ARG_REG (reg_id r)) as [xa | | | |] eqn:Xa; cbn [bind] in H; try discriminate.
    apply finish_ok in H. subst cs. unfold argument_in in Arg. rewrite (arg_reg_machine _ _ Xa) in Arg.
    destruct (Tail xa m (or_introl eq_refl) eq_refl) as (M' & R & W); [subst v; symmetry; apply low_low |].
    exists (set_mem m M'). split; [exact R |]. split; [exact W | reflexivity].
  - change (CALLER (NUM_CALLER_SAVED_REGS - 2)) with (Ok R10_REG_ID) in H. cbn [bind] in H.
    apply finish_ok in H. subst cs. unfold argument_in in Arg.
    assert (argument_reg (reg_id r) = None) as Na.
    { unfold NUM_ARG_REGS in E. unfold argument_reg. destruct (reg_id r) as [| p | p]; try reflexivity; try lia.
      do 3 (destruct p as [p | p |]; try lia; try reflexivity). }
    rewrite Na in Arg. cbv zeta in Arg. destruct Arg as (Hk & Ac2 & Ho).
    set (b := low S8 (rget (regs m) RBP + 16 + 8 * (reg_id r - 6))) in *.
    pose proof (load_holds _ _ _ _ Ac2 Ho BM) as Hl.
    set (m1 := set_regs m (put (regs m) z R10 v)).
    assert (forall q, q <> R10 -> rget (regs m1) q = rget (regs m) q) as O1 by (intros q Hq; apply rget_put_other, Hq).
    destruct (Tail R10_REG_ID m1 (or_intror O1) eq_refl) as (M' & R & W).
    { unfold m1; cbn [regs set_regs reg_of]. apply low_put. lia. }
    exists (set_mem m1 M'). split; [| split; [exact W | exact O1]].
    eapply (runs_app e [_] [_]); [| exact R].
    replace (Next m1) with (exec e (Mov z (Mem (Base_disp RBP (- (- (reg_id r - NUM_ARG_REGS + 1) * 8 - 8)))) (Reg R10)) m).
    + apply runs_one.
      assert (mnemonic_size (Some (X64_OPERAND_MEM (- (reg_id r - NUM_ARG_REGS + 1) * 8 - 8))) (Some (X64_OPERAND_REG ss R10_REG_ID)) = Some z) as Hm by exact Ss.
      cbn [decode]. rewrite Hm. cbn [decode_mov]. rewrite (reg_operand_same z _ R10_REG_ID Ss). reflexivity.
    + cbn [exec read address].
      replace (low S8 (rget (regs m) RBP + - (- (reg_id r - NUM_ARG_REGS + 1) * 8 - 8))) with b.
      * rewrite Hl. reflexivity.
      * unfold b. f_equal. unfold NUM_ARG_REGS. lia.
Qed.

Lemma stret_correct f st cs st' e m z v :
  gen_inst_x64code (IMMC_INST IMMC_INST_STRET None (Some f) None) st = Ok (cs, st') ->
  is_register_or_literal f -> operand_size f = Some z -> loadable f z -> value m f = Some v ->
  exists m', runs e cs m (Next m') /\ low z (rget (regs m') RAX) = low z v /\ changes_only [RAX] m m'.
Proof.
  cbn [gen_inst_x64code]. intros H Rf Zf Ld V. unfold gen_stret in H. cbn [deref bind] in H.
  assert (size_of (xsuffix_of f) = Some z) as Sf.
  { apply size_of_suffix. destruct f; try contradiction; exact Zf. }
  destruct f as [| sf rf | | | | sf i |]; try contradiction.
  - unfold ope_real, ope_unsigned in H. cbn [ope_reg deref bind] in H.
    destruct (CALLER (reg_id rf)) as [xf | | | |] eqn:Cf; cbn [bind] in H; try discriminate.
    apply finish_ok in H. subst cs. cbn [operand_size value] in *. rewrite Zf, (caller_machine _ _ Cf) in V. injection V as <-.
    destruct (append_mov_runs e _ z xf _ z AX_REG_ID (reg_unsigned rf) m Sf Sf) as (m' & R & M & _ & V & O & _).
    { intros (_ & -> & ?). discriminate. }
    exists m'. split; [exact R |]. split; [exact V |]. split; [exact M |]. intros q Hq. cbn [reg_of] in O.
    assert (q <> RAX) by (intros ->; apply Hq; cbn; auto). apply O; auto.
  - apply finish_ok in H. subst cs. cbn [value] in *. injection V as <-.
    eexists. split; [eapply run_mov_imm; [exact Sf | exact Ld] |]. cbn [regs set_regs X64Isa.mem reg_of].
    split; [rewrite low_put by lia; apply low_low |].
    split; [reflexivity |]. intros q Hq. apply rget_put_other. intros ->. apply Hq. cbn. auto.
Qed.

(** pushing an argument *)
Lemma starg_correct f st cs st' e m v :
  gen_inst_x64code (IMMC_INST IMMC_INST_STARG None (Some f) None) st = Ok (cs, st') ->
  is_register_or_literal f -> operand_size f <> None -> encodable S8 f -> value m f = Some v ->
  let a := low S8 (rget (regs m) RSP - 8) in
  accessible (X64Isa.mem m) a 8 ->
  exists m' w, runs e cs m (Next m') /\ written (X64Isa.mem m) a 8 w (X64Isa.mem m')
    /\ (forall z, operand_size f = Some z -> low z w = low z v)
    /\ rget (regs m') RSP = a /\ (forall q, q <> RSP -> rget (regs m') q = rget (regs m) q).
Proof.
  intros H Rf Zf En V a Ac. cbn [gen_inst_x64code] in H. unfold gen_starg in H. cbn [deref bind] in H.
  assert (exists o w, insns cs = Some [Push o] /\ read e S8 o m = Some w /\ (forall z, operand_size f = Some z -> low z w = low z v)) as (o & w & Hi & Hr & Hw).
  { destruct f as [| sf rf | | | | sf i |]; try contradiction.
    - unfold ope_real in H. cbn [ope_reg deref bind] in H.
      destruct (CALLER (reg_id rf)) as [xf | | | |] eqn:Cf; cbn [bind] in H; try discriminate.
      apply finish_ok in H. subst cs. exists (Reg (reg_of xf)), (get (regs m) S8 (reg_of xf)).
      split; [reflexivity |]. split; [reflexivity |]. intros z Hz. cbn [operand_size value] in *.
      rewrite Hz, (caller_machine _ _ Cf) in V. injection V as <-. rewrite low_interp. unfold get.
      apply low_low_le. destruct z; cbn; lia.
    - apply finish_ok in H. subst cs. exists (Imm (lit_value i)), (low S8 (lit_value i)). cbn [encodable value] in *. injection V as <-.
      split.
      + cbn [insns decode mnemonic_size one_suffix suffix_bearing size_of operand]. rewrite En. reflexivity.
      + split; [reflexivity |]. intros z _. apply low_low_le. destruct z; cbn; lia. }
  destruct (store_written (X64Isa.mem m) S8 a w Ac) as (M' & St & Wr).
  exists (mkstate (rset (regs m) RSP a) (fl m) M'), w. cbn [regs X64Isa.mem].
  split.
  { exists [Push o]. split; [exact Hi |]. cbn [exec_list exec]. rewrite Hr. unfold push. change (low S8 (rsp (regs m) - 8)) with a. cbv zeta. rewrite St. reflexivity. }
  split; [exact Wr |]. split; [exact Hw |]. split; [apply rget_rset_same |]. intros q Hq. apply rget_rset_other, Hq.
Qed.

(** an unconditional jump *)
Lemma jmp_correct l st cs st' e m :
  gen_inst_x64code (IMMC_INST IMMC_INST_JMP (Some (IMMC_OPERAND_LABEL l)) None None) st = Ok (cs, st') ->
  runs e cs m (Goto l m).
Proof.
  cbn [gen_inst_x64code]. intros H. unfold gen_jmp in H. cbn [deref bind ope_label] in H. apply finish_ok in H. subst cs.
  apply runs_one with (i := Jmp l). reflexivity.
Qed.
