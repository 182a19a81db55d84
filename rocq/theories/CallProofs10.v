(** C34: arguments *)
From Coq Require Import Lia ZifyBool.
From Verif Require Import Base ElabProofs SrtModel ImmcModel ImmcgenModel LabelProofs2 RegallocModel X64Model X64Decode X64genModel OpSpec IsaProofs IsaMemProofs X64genProofs X64genProofs2 X64genProofs5 LabelSpec CallSpec CallProofs3 CallProofs2 CallProofs5 CallProofs6 ResolverModel CallProofs7 CallProofs8 CallProofs9 X64Isa.
Local Open Scope Z_scope.
Local Open Scope bool_scope.
Ltac splits := repeat match goal with |- _ /\ _ => split end.

Lemma runs_same e cs m o o' : runs e cs m o -> runs e cs m o' -> o = o'.
Proof. intros (l & A & B) (l' & A' & B'). congruence. Qed.
Lemma pushed_stack e vs m m' : pushed e vs m m' -> 8 * Z.of_nat (length vs) <= rget (regs m) RSP < 2 ^ 64 ->
  rget (regs m') RSP = rget (regs m) RSP - 8 * Z.of_nat (length vs)
  /\ (forall a, rget (regs m) RSP <= a -> peek (mem m') a = peek (mem m) a)
  /\ (forall a n, accessible (mem m) a n -> accessible (mem m') a n)
  /\ (forall j z v, nth_error vs j = Some (z, v) -> accessible (mem m') (rget (regs m') RSP + 8 * Z.of_nat j) 8 /\ exists w, holds (mem m') (rget (regs m') RSP + 8 * Z.of_nat j) 8 w /\ low z w = low z v).
Proof.
  intros P. induction P as [m m' (K1 & K2 & K3) | f z v vs st cs st' m m1 m2 m3 P IH G RF EN OS V R (K1 & K2 & K3)]; intros B.
  - cbn [length]. splits; auto; [rewrite K1; lia |]. intros j z v E. destruct j; discriminate E.
  - cbn [length] in *. destruct (IH ltac:(lia)) as (I1 & I2 & I3 & I4). clear IH.
    assert (LS : low S8 (rget (regs m1) RSP - 8) = rget (regs m1) RSP - 8) by (apply low_small; change (2 ^ nbits S8) with (2 ^ 64); lia).
    assert (AC : accessible (mem m1) (rget (regs m1) RSP - 8) 8).
    { destruct R as (l & L & X). unfold gen_inst_x64code, gen_starg in G. cbn [deref bind] in G.
      assert (exists o, insns cs = Some [Push o]) as (o & IO).
      { destruct f as [| sf rf | | | | sf i |]; try contradiction.
        - unfold ope_real in G. cbn [ope_reg deref bind] in G. destruct (CALLER (reg_id rf)) as [xf | | | |]; cbn [bind] in G; try discriminate. apply X64genProofs2.finish_ok in G. subst cs. eexists. reflexivity.
        - apply X64genProofs2.finish_ok in G. subst cs. cbn [encodable] in EN. exists (Imm (lit_value i)). cbn [insns decode mnemonic_size one_suffix suffix_bearing size_of operand]. rewrite EN. reflexivity. }
      rewrite IO in L. injection L as <-. cbn [exec_list exec] in X. destruct (read e S8 o m1) as [w |]; [| discriminate X]. unfold push in X. change (rsp (regs m1)) with (rget (regs m1) RSP) in X. rewrite LS in X. destruct (store (mem m1) S8 (rget (regs m1) RSP - 8) w) as [M |] eqn:ST; [| discriminate X].
      unfold store in ST. destruct (valid (mem m1) (rget (regs m1) RSP - 8) (nbytes S8)) eqn:VA; [| discriminate ST]. now apply valid_accessible in VA. }
    assert (AC' : accessible (mem m1) (low S8 (rget (regs m1) RSP - 8)) 8) by (rewrite LS; exact AC).
    destruct (starg_correct f st cs st' e m1 v G RF ltac:(congruence) EN V AC') as (m2' & w & R' & W & LW & SP & O). rewrite LS in W, SP. assert (X := runs_same _ _ _ _ _ R R'). injection X as <-.
    assert (SP3 : rget (regs m3) RSP = rget (regs m1) RSP - 8) by congruence.
    assert (W' := W). destruct W as (RG & W). splits.
    + lia.
    + intros a L. rewrite K2 by lia. rewrite W by lia. replace ((rget (regs m1) RSP - 8 <=? a) && (a <? rget (regs m1) RSP - 8 + 8)) with false by lia. now apply I2.
    + intros a n A. apply K3. eapply written_accessible; [exact W' | auto].
    + intros j z' v' E. destruct j as [| j]; cbn in E.
      * injection E as <- <-. rewrite SP3, Nat2Z.inj_0, Z.mul_0_r, Z.add_0_r. split; [apply K3; eapply written_accessible; eassumption |]. exists (low S8 w). split.
        -- eapply holds_agree; [eapply (written_holds _ S8); [lia | exact W'] |]. intros i I. change (size_bytes S8) with 8 in I. apply K2. lia.
        -- rewrite <- (LW z OS). apply low_low_le. destruct z; cbn; lia.
      * destruct (I4 _ _ _ E) as (A1 & u & A2 & A3). replace (rget (regs m3) RSP + 8 * Z.of_nat (S j)) with (rget (regs m1) RSP + 8 * Z.of_nat j) by lia. split; [apply K3; eapply written_accessible; eassumption |]. exists u. split; [| exact A3].
        eapply holds_agree; [exact A2 |]. intros i I. rewrite K2 by lia. rewrite W by lia. replace ((rget (regs m1) RSP - 8 <=? rget (regs m1) RSP + 8 * Z.of_nat j + i) && (rget (regs m1) RSP + 8 * Z.of_nat j + i <? rget (regs m1) RSP - 8 + 8)) with false by lia. reflexivity.
Qed.
(** the words pushed *)
Lemma pushed_words e vs m m' : pushed e vs m m' -> 8 * Z.of_nat (length vs) <= rget (regs m) RSP < 2 ^ 64 ->
  exists ws, length ws = length vs /\ (forall j z v w, nth_error vs j = Some (z, v) -> nth_error ws j = Some w -> low z w = low z v)
  /\ (forall j w, nth_error ws j = Some w -> accessible (mem m') (rget (regs m') RSP + 8 * Z.of_nat j) 8 /\ holds (mem m') (rget (regs m') RSP + 8 * Z.of_nat j) 8 w).
Proof.
  intros P B. destruct (pushed_stack _ _ _ _ P B) as (_ & _ & _ & H). clear P B.
  assert (G : forall vs b, (forall j z v, nth_error vs j = Some (z, v) -> accessible (mem m') (b + 8 * Z.of_nat j) 8 /\ exists w, holds (mem m') (b + 8 * Z.of_nat j) 8 w /\ low z w = low z v) ->
    exists ws, length ws = length vs /\ (forall j z v w, nth_error vs j = Some (z, v) -> nth_error ws j = Some w -> low z w = low z v)
      /\ (forall j w, nth_error ws j = Some w -> accessible (mem m') (b + 8 * Z.of_nat j) 8 /\ holds (mem m') (b + 8 * Z.of_nat j) 8 w)); [| apply G, H].
  clear. induction vs as [| [z v] vs IH]; intros b H.
  - exists []. splits; [reflexivity | intros j z v w E; destruct j; discriminate E | intros j w E; destruct j; discriminate E].
  - destruct (H O z v eq_refl) as (A & w & W1 & W2). destruct (IH (b + 8)) as (ws & L & I1 & I2).
    { intros j z' v' E. replace (b + 8 + 8 * Z.of_nat j) with (b + 8 * Z.of_nat (S j)) by lia. now apply (H (S j)). }
    exists (w :: ws). splits; [cbn; now rewrite L | |].
    + intros j z' v' w' E1 E2. destruct j as [| j]; cbn in E1, E2; [congruence | eapply I1; eassumption].
    + intros j w' E. destruct j as [| j]; cbn in E; [injection E as <-; auto |]. replace (b + 8 * Z.of_nat (S j)) with (b + 8 + 8 * Z.of_nat j) by lia. now apply I2.
Qed.
Theorem arguments_passed dst f s i st cs st' e m0 m vs :
  pushed e vs m0 m -> 8 * Z.of_nat (length vs) <= rget (regs m0) RSP < 2 ^ 64 ->
  gen_inst_x64code (IMMC_INST IMMC_INST_CALL dst (Some f) (Some (IMMC_OPERAND_INT s i))) st = Ok (cs, st') ->
  count_of (Some (IMMC_OPERAND_INT s i)) = Z.of_nat (length vs) ->
  match dst with Some d => is_register d /\ operand_size d <> None | None => True end ->
  (forall q, 0 <= rget (regs m) q < 2 ^ 64) -> byte_memory (mem m) ->
  exists pre c post m1 i1, cs = pre ++ c :: post /\ runs e pre m (Next m1) /\ insns [c] = Some [i1]
    /\ match f with
       | IMMC_OPERAND_LABEL l => exec e i1 m1 = Calls l m1
       | IMMC_OPERAND_PTR r => exists q, machine_reg (reg_id r) = Some q /\ exec e i1 m1 = Calls_at (rget (regs m) q) m1
       | _ => False
       end
    /\ rget (regs m1) RSP = rget (regs m0) RSP - 8 * Z.max 0 (Z.of_nat (length vs) - 6)
    /\ (forall j z v, nth_error vs j = Some (z, v) -> passed m1 (Z.of_nat j) z v).
Proof.
  intros P B G CN DS WD BM. destruct (pushed_stack _ _ _ _ P B) as (SP & _). destruct (pushed_words _ _ _ _ P B) as (ws & LW & W1 & W2).
  destruct (call_correct dst f s i st cs st' e m ws G) as (pre & c & post & m1 & i1 & E1 & E2 & E3 & E4 & E5 & E6 & E7 & E8 & _); auto.
  { now rewrite LW. } { rewrite LW. lia. }
  exists pre, c, post, m1, i1. splits; auto.
  - rewrite E6, SP, LW. lia.
  - intros j z v J. destruct (nth_error ws j) as [w |] eqn:W; [| apply nth_error_None in W; assert (j < length vs)%nat by (apply nth_error_Some; rewrite J; discriminate); lia].
    unfold passed. destruct (argument_reg (Z.of_nat j)) as [q |] eqn:Q; [rewrite (E8 _ _ _ W Q); eapply W1; eassumption |]. cbv zeta.
    assert (J6 : (6 <= j)%nat). { do 6 (destruct j as [| j]; [discriminate Q |]). lia. }
    assert (JL : (j < length ws)%nat) by (apply nth_error_Some; rewrite W; discriminate). rewrite E6, E5. replace (rget (regs m) RSP + 8 * Z.min 6 (Z.of_nat (length ws)) + 8 * (Z.of_nat j - 6)) with (rget (regs m) RSP + 8 * Z.of_nat j) by lia. destruct (W2 _ _ W) as (A & H). splits; [lia | exact A |]. exists w. split; [exact H | eapply W1; eassumption].
Qed.
Lemma holds_low M a w z : holds M a 8 w -> holds M a (size_bytes z) (low z w).
Proof.
  intros (V & H). split; [rewrite <- nbits_nbytes; apply low_range |]. intros i I. rewrite H by (destruct z; cbn in I; lia). apply (byte_of_low z); [symmetry; apply low_low | exact I].
Qed.
Theorem arguments_entered e m1 ra m2 size saved m3 k z v :
  passed m1 k z v -> push ra m1 = Some m2 -> runs e (prologue size saved) m2 (Next m3) ->
  8 + frame_depth size saved <= rget (regs m1) RSP < 2 ^ 64 -> rget (regs m1) RSP + 8 * (k - 6) < 2 ^ 64 -> ~ In SP_REG_ID saved ->
  argument_in m3 k z (low z v).
Proof.
  intros PS PU R B BK NS. assert (FP : 0 <= frame_depth size saved) by (unfold frame_depth; destruct (Nat.odd _); lia).
  unfold push in PU. change (rsp (regs m1)) with (rget (regs m1) RSP) in PU. rewrite (low_small S8) in PU by (change (2 ^ nbits S8) with (2 ^ 64); lia). destruct (store (mem m1) S8 (rget (regs m1) RSP - 8) ra) as [M |] eqn:ST; [| discriminate PU].
  assert (AC : accessible (mem m1) (rget (regs m1) RSP - 8) (size_bytes S8)). { unfold store in ST. destruct (valid (mem m1) (rget (regs m1) RSP - 8) (nbytes S8)) eqn:V; [| discriminate ST]. now apply valid_accessible in V. }
  destruct (store_written _ S8 _ ra AC) as (M' & ST' & W). rewrite ST in ST'. injection ST' as <-.
  assert (E2 : m2 = mkstate (rset (regs m1) RSP (rget (regs m1) RSP - 8)) (fl m1) M) by congruence. clear PU.
  assert (S2 : rget (regs m2) RSP = rget (regs m1) RSP - 8) by (subst m2; apply rget_rset_same).
  destruct (prologue_run _ _ _ _ _ R ltac:(lia) NS) as (_ & P2 & P3 & _ & _ & P6 & P7). unfold passed in PS. unfold argument_in. destruct (argument_reg k) as [q |] eqn:Q.
  - destruct (argument_reg_at _ _ Q) as (j & r & _ & J & <- & _). apply nth_error_In in J. assert (reg_of r <> RSP /\ reg_of r <> RBP) as (N1 & N2) by (cbn in J; repeat (destruct J as [<- | J]; [cbn; split; discriminate |]); destruct J).
    rewrite P3 by assumption. subst m2. cbn [regs]. rewrite rget_rset_other by exact N1. exact PS.
  - cbv zeta in PS |- *. destruct PS as (K6 & A & w & H & L). rewrite P2, S2. replace (rget (regs m1) RSP - 8 - 8 + 16 + 8 * (k - 6)) with (rget (regs m1) RSP + 8 * (k - 6)) by lia. rewrite low_small by (change (2 ^ nbits S8) with (2 ^ 64); lia).
    set (a := rget (regs m1) RSP + 8 * (k - 6)) in *. assert (A2 : accessible (mem m2) a 8) by (subst m2; cbn [mem]; eapply written_accessible; eassumption).
    splits; [exact K6 | |].
    + apply P7 in A2. destruct A2 as (Z0 & r & I & I1 & I2). split; [exact Z0 |]. exists r. splits; auto. destruct z; cbn; lia.
    + rewrite <- L. apply holds_low. eapply holds_agree; [exact H |]. intros i I. rewrite P6 by lia. subst m2. cbn [mem]. destruct W as (_ & W). change (size_bytes S8) with 8 in W. rewrite W by lia. replace ((rget (regs m1) RSP - 8 <=? a + i) && (a + i <? rget (regs m1) RSP - 8 + 8)) with false by lia. reflexivity.
Qed.
Theorem parameters_read e : forall ps st cs st' m, generated (List.map load_parameter ps) st cs st' -> byte_memory (mem m) -> 0 <= rget (regs m) RBP < 2 ^ 64 ->
  (forall p, In p ps -> exists z, in_frame m p z) -> ForallOrdPairs apart ps ->
  forall vs, length vs = length ps -> (forall j p z v, nth_error ps j = Some p -> nth_error vs j = Some v -> suffix_size (p_suffix p) = Some z -> argument_in m (reg_id (p_register p)) z v /\ (argument_reg (reg_id (p_register p)) = None -> rget (regs m) RBP + 16 + 8 * (reg_id (p_register p) - 6) + 8 < 2 ^ 64)) ->
  exists m', runs e cs m (Next m') /\ (forall q, q <> R10 -> rget (regs m') q = rget (regs m) q)
    /\ forall j p z v, nth_error ps j = Some p -> nth_error vs j = Some v -> suffix_size (p_suffix p) = Some z -> holds (mem m') (rget (regs m) RBP - p_offset p) (size_bytes z) (low z v).
Proof.
  assert (MAIN : forall ps st cs st' m, generated (List.map load_parameter ps) st cs st' -> byte_memory (mem m) -> 0 <= rget (regs m) RBP < 2 ^ 64 ->
  (forall p, In p ps -> exists z, in_frame m p z) -> ForallOrdPairs apart ps ->
  forall vs, length vs = length ps -> (forall j p z v, nth_error ps j = Some p -> nth_error vs j = Some v -> suffix_size (p_suffix p) = Some z -> argument_in m (reg_id (p_register p)) z v /\ (argument_reg (reg_id (p_register p)) = None -> rget (regs m) RBP + 16 + 8 * (reg_id (p_register p) - 6) + 8 < 2 ^ 64)) ->
  exists m', runs e cs m (Next m') /\ (forall q, q <> R10 -> rget (regs m') q = rget (regs m) q)
    /\ (forall a n u, 0 <= a -> holds (mem m) a n u -> (forall p z, In p ps -> suffix_size (p_suffix p) = Some z -> a + n <= rget (regs m) RBP - p_offset p \/ rget (regs m) RBP - p_offset p + size_bytes z <= a) -> holds (mem m') a n u)
    /\ forall j p z v, nth_error ps j = Some p -> nth_error vs j = Some v -> suffix_size (p_suffix p) = Some z -> holds (mem m') (rget (regs m) RBP - p_offset p) (size_bytes z) (low z v));
  [| intros; destruct (MAIN ps st cs st' m H H0 H1 H2 H3 vs H4 H5) as (m' & A & B & _ & C); exists m'; auto].
  induction ps as [| p ps IH]; intros st cs st' m G BM RB FR AP vs LV AR.
  - inversion G; subst. exists m. splits; auto; [exists []; auto |]. intros j p z v E. destruct j; discriminate E.
  - cbn [List.map] in G. inversion G as [| c l ? c1 st1 c2 ? G1 G2]; subst. destruct vs as [| v vs]; [discriminate LV |]. destruct (FR p ltac:(now left)) as (z & Z & (O1 & O2) & AC).
    destruct (AR O p z v eq_refl eq_refl Z) as (A0 & _). assert (AD : rget (regs m) RBP - p_offset p = low S8 (rget (regs m) RBP - p_offset p)) by (symmetry; apply low_small; change (2 ^ nbits S8) with (2 ^ 64); assert (0 < size_bytes z) by (destruct z; cbn; lia); lia).
    destruct (ldarg_correct _ _ _ _ _ _ e m z _ v G1 Z AD AC BM A0) as (m1 & R1 & W & O). assert (RB1 : rget (regs m1) RBP = rget (regs m) RBP) by (apply O; discriminate).
    assert (BM1 := written_byte_memory _ _ _ _ _ BM W). inversion AP as [| ? ? AP1 AP2]; subst. rewrite Forall_forall in AP1.
    destruct (IH _ _ _ m1 G2 BM1 ltac:(lia)) with (vs := vs) as (m' & R & O' & K & H).
    { intros q I. destruct (FR q ltac:(now right)) as (y & Y1 & Y2 & Y3). exists y. split; [exact Y1 |]. rewrite RB1. split; [exact Y2 |]. eapply written_accessible; eassumption. }
    { exact AP2. } { cbn in LV. lia. }
    { intros j q y u J1 J2 Y. destruct (AR (S j) q y u J1 J2 Y) as (B1 & B2). rewrite RB1. split; [| exact B2]. unfold argument_in in *. destruct (argument_reg (reg_id (p_register q))) as [x |] eqn:X.
      - rewrite O; [exact B1 |]. intros ->. destruct (argument_reg_at _ _ X) as (j' & r & _ & J & E & _). apply nth_error_In in J. cbn in J. repeat (destruct J as [<- | J]; [discriminate E |]). destruct J.
      - cbv zeta in *. rewrite RB1. destruct B1 as (C1 & C2 & C3). specialize (B2 eq_refl). splits; [exact C1 | eapply written_accessible; eassumption |]. rewrite low_small in * by (change (2 ^ nbits S8) with (2 ^ 64); lia). eapply written_holds_other; [| exact W | | exact C3]; [lia | right; lia]. }
    exists m'. splits.
    + eapply runs_app; eassumption.
    + intros q Q. rewrite O', O; auto.
    + intros a n u A HH D. apply K; [exact A | |].
      * eapply written_holds_other; [exact A | exact W | | exact HH]. apply (D p z); [now left | exact Z].
      * intros q y I Y. rewrite RB1. apply (D q y); [now right | exact Y].
    + intros j q y u J1 J2 Y. destruct j as [| j]; cbn in J1, J2.
      * injection J1 as <-. injection J2 as <-. assert (y = z) by congruence. subst y. assert (P0 : 0 <= rget (regs m) RBP - p_offset p) by lia. apply K; [exact P0 | exact (written_holds _ _ _ _ _ P0 W) |].
        clear Y. intros q y I Y. rewrite RB1. destruct (AP1 q I z y Z Y); lia.
      * rewrite <- RB1. eapply H; eassumption.
Qed.

Lemma no_call_evenly : forall s b, no_call s -> evenly b s.
Proof.
  apply (srt_induction (fun s => forall b, no_call s -> evenly b s)). intros t d p cs IH b (N & C). cbn.
  assert (A : fold_right and True (List.map (evenly b) cs)).
  { clear N. induction cs as [| c cs IC]; [exact Logic.I |]. inversion IH; subst. destruct C as (C1 & C2). split; auto. }
  destruct t; try exact A. now contradiction N.
Qed.
Theorem no_nested_evenly : forall s, no_nested_call s -> evenly false s.
Proof.
  apply (srt_induction (fun s => no_nested_call s -> evenly false s)). intros t d p cs IH N. cbn in N |- *.
  assert (A : fold_right and True (List.map no_call cs) \/ fold_right and True (List.map no_nested_call cs) -> fold_right and True (List.map (evenly false) cs)).
  { clear N. intros N. induction cs as [| c cs IC]; [exact Logic.I |]. inversion IH; subst. destruct N as [(C1 & C2) | (C1 & C2)]; split; auto. now apply no_call_evenly. }
  destruct t; try exact (A (or_intror N)). destruct cs as [| f [| [t' d' p' args] [|]]]; try exact (A (or_introl N)). destruct N as (N1 & (_ & N2) & _). splits; [reflexivity | now apply no_call_evenly |].
  generalize (padded (length args)). intros pad. clear -N2. induction args as [| a args IH]; [exact Logic.I |]. destruct N2 as (A & B). split; [now apply no_call_evenly | exact (IH B)].
Qed.

Theorem program_restores a s cs code lives X F : resolve a = Ok s -> plain_names s -> immcgen s = Ok cs -> few_arguments s ->
  allocate_regs (Z.to_nat NUM_CALLER_SAVED_REGS) cs = Ok (code, lives) -> x64gen code lives = Ok X -> x64_function X F ->
  exists size saved body, function_code F size saved body
  /\ forall e m0 p m, (forall q, 0 <= rget (regs m0) q < 2 ^ 64) -> frame_depth size saved <= rget (regs m0) RSP < 2 ^ 64 - 8 -> steps e F (0%nat, m0) (p, m) -> returning e F p m ->
  let entry := S (length (prologue size saved)) in
  exists m1 m2, runs e (prologue size saved) m0 (Next m1) /\ steps e F (entry, m1) ((entry + length body)%nat, m2)
    /\ ((forall a, saved_area (rget (regs m0) RSP) size saved a -> peek (mem m2) a = peek (mem m1) a) -> forall q, In q callee_saved -> rget (regs m) q = rget (regs m0) q).
Proof.
  intros R PN G FA AL XG XF. destruct (program_functions false _ _ _ _ _ _ _ R PN G (conj FA (fun E => match Bool.diff_false_true E with end)) AL XG XF) as (FR & ND). exact (callee_saved_restored _ _ FR ND).
Qed.
Theorem program_aligned a s cs code lives X F e m0 p m : resolve a = Ok s -> plain_names s -> immcgen s = Ok cs -> few_arguments s -> evenly false s ->
  allocate_regs (Z.to_nat NUM_CALLER_SAVED_REGS) cs = Ok (code, lives) -> x64gen code lives = Ok X ->
  x64_function X F -> 0 <= rget (regs m0) RSP < 2 ^ 64 -> rget (regs m0) RSP mod 16 = 8 -> steps e F (0%nat, m0) (p, m) -> calling e F p m -> rget (regs m) RSP mod 16 = 0.
Proof. intros R PN G FA EV AL XG XF W M ST CA. exact (proj2 (stack_restored true _ _ _ _ _ _ _ _ _ _ _ R PN G (conj FA (fun _ => EV)) AL XG XF W ST) eq_refl M CA). Qed.
Theorem program_returns a s cs code lives X F e m0 p m : resolve a = Ok s -> plain_names s -> immcgen s = Ok cs -> few_arguments s ->
  allocate_regs (Z.to_nat NUM_CALLER_SAVED_REGS) cs = Ok (code, lives) -> x64gen code lives = Ok X ->
  x64_function X F -> 0 <= rget (regs m0) RSP < 2 ^ 64 -> steps e F (0%nat, m0) (p, m) -> returning e F p m -> rget (regs m) RSP = rget (regs m0) RSP.
Proof. intros R PN G FA AL XG XF W ST RE. exact (proj1 (stack_restored false _ _ _ _ _ _ _ _ _ _ _ R PN G (conj FA (fun E => match Bool.diff_false_true E with end)) AL XG XF W ST) RE). Qed.
