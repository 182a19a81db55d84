(** The code of an expression computes its value: increments and pointer arithmetic *)
From Verif Require Import Base SrtModel ImmcModel ImmcgenModel X64Isa X64Decode OpSpec TypeSpec TypeProofs CSem ImmcSem GenSpec ElabProofs GenProofs IsaProofs LabelSpec ExprProofs ExprProofs2 ExprProofs3 ExprProofs4 ExprProofs5.
Open Scope Z_scope.

Ltac einv H :=
  repeat match type of H with
  | bind (check ?b) _ = Ok _ =>
      let Z := fresh "Z" in destruct b eqn:Z; cbn [check bind] in H; [| discriminate H]
  | bind _ _ = Ok _ => let x := fresh "x" in let M := fresh "V" in apply bind_ok in H as (x & M & H); cbv beta in H
  | (let 'pair _ _ := ?x in _) = _ => is_var x; destruct x
  end; cbv beta iota in H.

Lemma step_by_low d u s v up k v' : kind d = Some (u, s) -> step_by d v up = Ok v' -> k = (if up then unit_of d else - unit_of d) -> low s v' = low s (v + k).
Proof.
  intros K H ->. unfold step_by in H. destruct d; try discriminate K; try (now apply (fit_low _ u s _ _ K) in H); [now apply (convert_low _ u s _ _ K) in H |].
  apply advance_ok in H as (-> & _). reflexivity.
Qed.
Lemma incdec_unit d sf o : incdec_value d sf = Ok o -> exists i, o = IMMC_OPERAND_INT sf i /\ (kind d <> None -> lit_value i = unit_of d).
Proof.
  unfold incdec_value. destruct d; cbn; intros H; try discriminate H; injection H as <-; eexists; (split; [reflexivity |]); intros K; try reflexivity.
  cbn. rewrite nbytes_sizeof. unfold lit_value. cbn. rewrite Z.gtb_ltb. reflexivity.
Qed.
Section Sim.
Variables (call : caller) (P : places) (params : list (size * Z)) (C : list immc).
Hypothesis NL : NoDup (labels C).
Hypothesis PP : places_ok P.
Notation go := (reaches call (p_label P) (p_frame P) params C).
Notation step := (istep call (p_label P) (p_frame P) params).
Notation at_ := (code_at C).
Notation ev := (eval call P).
Notation addr := (iaddress (p_label P) (p_frame P)).
Notation runs_to := (runs_to call P params C).
Notation concl := (concl call P params C).
Notation range := (eval_range call P PP).
Variable gen : option dtype -> srt -> gst -> gres.
Hypothesis G : forall od s st cs st', regular s = true -> gen od s st = Ok (cs, st') -> stable st st'.
Hypothesis X : simulated call P params C gen.
Notation child_int := (child_int_ok call P params C NL PP gen G X).
Notation child_reg := (child_reg_ok call P params C NL PP gen G X).
Notation child_ptr := (child_ptr_ok call P params C PP gen G X).
Notation jmp_cond := (jmp_cond_ok call P params C NL PP gen G X).

Notation finish := (finish call P params C NL gen G).
Notation operands := (operands call P params C NL PP gen G X).

(** ** Increment and decrement *)
Definition going_up (t : srttype) : bool := match t with SRT_PREINC_EXPR | SRT_POSTINC_EXPR => true | _ => false end.
Lemma step_load_mem dst ptr d u s a w q W : kind d = Some (u, s) -> operand_size dst = Some s -> is_memory ptr = true -> addr q ptr = Some a -> i_world q = W -> load (w_mem W) s a = Some w ->
  step (inst2 IMMC_INST_LOAD dst ptr) q = put_result dst w q.
Proof. intros K S M Ad Wq Ld. cbn [inst2 istep]. rewrite M, S, Ad, Wq, Ld. reflexivity. Qed.
Lemma step_store ptr src s a v m q W : addr q ptr = Some a -> operand_size src = Some s -> ivalue q src = Some v -> i_world q = W -> store (w_mem W) s a v = Some m ->
  step (inst2 IMMC_INST_STORE ptr src) q = INext (set_world (set_wmem W m) q).
Proof. intros Ad S V Wq Sm. cbn [inst2 istep]. rewrite Ad, S, V, Wq, Sm. reflexivity. Qed.
Lemma step_addsub up dst s k q w i : operand_size dst = Some s -> ivalue q dst = Some w -> operand_size i = Some s -> ivalue q i = Some k ->
  step (inst3 (if up : bool then IMMC_INST_ADD else IMMC_INST_SUB) dst dst i) q
  = put_result dst (interp (operand_unsigned dst) s (w + (if up then k else - k))) q.
Proof.
  intros S V Si Vi. destruct up; cbn [inst3 istep]; unfold common; rewrite S, Si, larger_id, V, Vi; cbn [binop]; [reflexivity |]. now rewrite Z.add_opp_r.
Qed.
Lemma ivalue_set r s x q sf : suffix_size sf = Some s -> ivalue (set_reg (reg_id r) s x q) (IMMC_OPERAND_REG sf r) = Some (interp (reg_unsigned r) s x).
Proof. intros S. cbn [ivalue]. now rewrite S, set_reg_get, size_eqb_refl. Qed.
Lemma incdec_ok e st cs st' Sc W v W' q p :
  match srt_type e with SRT_PREINC_EXPR | SRT_PREDEC_EXPR | SRT_POSTINC_EXPR | SRT_POSTDEC_EXPR => True | _ => False end ->
  gen_incdec_expr gen e st = Ok (cs, st') -> regular e = true -> env Sc st -> ev Sc e W = Ok (v, W') -> at_ p cs -> i_world q = W ->
  concl e st st' p cs q W' v.
Proof.
  intros T H R En E A Wq. destruct e as [et od pl ch]. cbn [srt_type] in T.
  assert (exists d a da z w x x', od = Some d /\ ch = [a] /\ srt_dtype a = Some da /\ pointer da = true /\ ev Sc a W = Ok (z, w) /\ load_as d z w = Ok x
    /\ step_by d x (going_up et) = Ok x' /\ store_as d z x' w = Ok W' /\ v = (match et with SRT_PREINC_EXPR | SRT_PREDEC_EXPR => x' | _ => x end) /\ computed_last a = true)
    as (d & a & da & z & w & x & x' & -> & -> & Da & Pd & Ea & Lx & Sx & Stx & Ev & Cl).
  { apply regular_regular_node in R. destruct et; try contradiction; cbn [eval] in E; (destruct od as [d |]; [| discriminate E]; destruct ch as [| a [| ? ?]]; try discriminate E; einv E; injection E as <- <-;
    destruct (srt_dtype a) as [da |] eqn:Da; [| discriminate Z]; eexists d, a, da, _, _, _, _; splits; try reflexivity; try eassumption). }
  unfold gen_incdec_expr in H. apply bind_ok in H as ([[c1 ptr] st1] & M1 & H). apply bind_ok in H as ([dst st2] & M2 & H). cbn [dty deref srt_dtype bind] in H. apply bind_ok in H as (o & Mo & H).
  assert (A1 : exists rest, cs = c1 ++ rest).
  { cbn [srt_type] in H. destruct et; try contradiction; ginv H; injection H as <- <-; eexists; reflexivity. }
  destruct A1 as (rest & ->). apply code_at_app in A as [A1 A2].
  edestruct (child_ptr) as (q1 & R1 & Mm & S1 & Ad); [exact M1 | reflexivity | exact (kid _ 0%nat _ (regular_kids _ R) eq_refl) | exact Cl | exact En | exact Ea | exact Da | exact Pd | exact A1 | exact Wq |].
  assert (Wq1 := proj1 (proj2 R1)).
  unfold load_as in Lx. destruct (kind d) as [[u s] |] eqn:K; [| discriminate Lx]. destruct (load _ _ _) as [y |] eqn:Ld; [| discriminate Lx]. injection Lx as <-.
  unfold store_as in Stx. rewrite K in Stx. destruct (store _ _ _ _) as [m |] eqn:Sm; [| discriminate Stx]. injection Stx as <-.
  destruct (incdec_unit _ _ _ Mo) as (lit & -> & Lu). specialize (Lu ltac:(congruence)).
  assert (Ed : dst = IMMC_OPERAND_REG (immcsuffix_get (dtype_nbytes d)) (mkireg (g_next st1 + 1) (uns d)) /\ g_next st2 = g_next st1 + 1 /\ stable st1 st2).
  { split; [| split; [| eapply dest_stable, M2]]; unfold create_dest_reg, dty, deref in M2; cbn in M2; injection M2 as <- <-; reflexivity. }
  destruct Ed as (Ed & N2 & S2). assert (Sf := suffix_kind _ _ _ K).
  set (sf := immcsuffix_get (dtype_nbytes d)) in *. set (r := mkireg (g_next st1 + 1) (uns d)) in *.
  assert (Nst := st_next _ _ S1).
  (* the value is loaded *)
  set (qa := set_reg (reg_id r) s (low s y) q1).
  assert (St1 : step (inst2 IMMC_INST_LOAD dst ptr) q1 = INext qa).
  { erewrite step_load_mem; [| exact K | subst dst; exact Sf | exact Mm | exact (Ad _ (keep_refl _ _)) | exact Wq1 | exact Ld]. subst dst. cbn [put_result]. rewrite Sf. reflexivity. }
  assert (Ka : keep (g_next st1) q1 qa) by (apply keep_set_reg; subst r; cbn; lia).
  (* and changed, whatever else is in higher registers *)
  assert (Chg : forall q2, keep (g_next st2) qa q2 -> i_world q2 = w -> exists q3,
     step (inst3 (if going_up et then IMMC_INST_ADD else IMMC_INST_SUB) dst dst (IMMC_OPERAND_INT (ope_suffix dst) lit)) q2 = INext q3
     /\ (forall k, k <> reg_id r -> i_regs q3 k = i_regs q2 k) /\ i_args q3 = i_args q2 /\ i_ret q3 = i_ret q2 /\ i_world q3 = w
     /\ i_regs q3 (reg_id r) = Some (s, low s x')
     /\ step (inst2 IMMC_INST_STORE ptr dst) q3 = INext (set_world (set_wmem w m) q3)).
  { intros q2 K2 W2. assert (V2 : ivalue q2 dst = Some (interp (uns d) s (low s y))).
    { subst dst. cbn [ivalue]. rewrite Sf. destruct K2 as (_ & _ & K2). rewrite K2 by (rewrite N2; reflexivity). unfold qa. rewrite set_reg_get, size_eqb_refl. reflexivity. }
    eexists. split.
    - erewrite (step_addsub (going_up et) dst s (unit_of d)); [| subst dst; exact Sf | exact V2 | subst dst; exact Sf | cbn [ivalue]; now rewrite Lu]. subst dst. cbn [put_result]. rewrite Sf. reflexivity.
    - assert (Lx : low s (interp (uns d) s (interp (uns d) s (low s y) + (if going_up et then unit_of d else - unit_of d))) = low s x').
      { rewrite low_interp. erewrite (step_by_low _ _ _ _ _ _ _ K Sx) by reflexivity. apply low_add; [| reflexivity]. rewrite !low_interp. apply low_low. }
      splits; try reflexivity; try assumption.
      + intros k Nk. unfold r in Nk. cbn in Nk |- *. unfold upd. destruct (k =? g_next st1 + 1) eqn:Ek; [apply Z.eqb_eq in Ek; contradiction | reflexivity].
      + unfold set_reg, i_regs, upd. rewrite Z.eqb_refl. replace (operand_unsigned dst) with (uns d) by (rewrite Ed; reflexivity). now rewrite Lx.
      + eapply (step_store _ _ s z); [| subst dst; exact Sf | subst dst; apply (ivalue_set r); exact Sf | cbn; exact W2 |].
        * apply Ad. eapply keep_trans; [exact Ka | | reflexivity]. eapply (keep_trans _ (g_next st1)); [eapply keep_le; [exact K2 |] | apply keep_set_reg | reflexivity]; [rewrite N2; lia | subst r; cbn; lia].
        * rewrite <- Sm. apply store_low. subst dst. cbn [operand_unsigned reg_unsigned]. rewrite low_interp, low_low. exact Lx. }
  assert (Pre : srt_type (Srt et (Some d) pl [a]) = et) by reflexivity. rewrite Pre in H. clear Pre.
  assert (N1 := st_next _ _ S1).
  destruct et; try contradiction; cbn [going_up] in *.
  - apply bind_ok in H as (st3 & M3 & H). assert (M3' := M3). rewrite Ed in M3. cbn in M3. injection M3 as <-. injection H; clear H; intros <- H. apply app_inv_head in H. subst rest.
    destruct (Chg qa (keep_refl _ _) Wq1) as (q3 & T1 & C1 & C2 & C3 & C4 & C5 & T2).
    assert (B1 := A2). assert (B2 := B1). apply code_at_cons in B2 as [_ B2]; [| exact NL]. assert (B3 := B2). apply code_at_cons in B3 as [_ B3]; [| exact NL].
    exists (set_world (set_wmem w m) q3). split.
    + eapply (runs_app _ _ _ _ _ _ _ _ _ _ _ (g_next st1)); [exact R1 | | exact N1].
      split; [| split; [reflexivity |]].
      * cbn [length]. eapply go_trans; [eapply go_next; [exact NL | exact B1 | exact St1] |]. eapply go_trans; [eapply go_next; [exact NL | exact B2 | exact T1] |].
        eapply go_to; [eapply go_next; [exact NL | exact B3 | exact T2] |]. cbn [length]. lia.
      * split; [exact C2 | split; [exact C3 |]]. intros k Hk. cbn [i_regs set_world]. rewrite C1 by (subst r; cbn; lia). apply Ka. exact Hk.
    + intros d' u' s' D' K'. injection D' as <-. rewrite K in K'. injection K' as <- <-. exists r. split; [reflexivity |]. split; [subst r; cbn [reg_id g_next gset_reg gset_next]; lia |]. split.
      * exists u, s. splits; auto. subst v. exact C5.
      * intros _. subst r. cbn [reg_id g_next gset_reg gset_next]. lia.
  - apply bind_ok in H as (st3 & M3 & H). assert (M3' := M3). rewrite Ed in M3. cbn in M3. injection M3 as <-. injection H; clear H; intros <- H. apply app_inv_head in H. subst rest.
    destruct (Chg qa (keep_refl _ _) Wq1) as (q3 & T1 & C1 & C2 & C3 & C4 & C5 & T2).
    assert (B1 := A2). assert (B2 := B1). apply code_at_cons in B2 as [_ B2]; [| exact NL]. assert (B3 := B2). apply code_at_cons in B3 as [_ B3]; [| exact NL].
    exists (set_world (set_wmem w m) q3). split.
    + eapply (runs_app _ _ _ _ _ _ _ _ _ _ _ (g_next st1)); [exact R1 | | exact N1].
      split; [| split; [reflexivity |]].
      * cbn [length]. eapply go_trans; [eapply go_next; [exact NL | exact B1 | exact St1] |]. eapply go_trans; [eapply go_next; [exact NL | exact B2 | exact T1] |].
        eapply go_to; [eapply go_next; [exact NL | exact B3 | exact T2] |]. cbn [length]. lia.
      * split; [exact C2 | split; [exact C3 |]]. intros k Hk. cbn [i_regs set_world]. rewrite C1 by (subst r; cbn; lia). apply Ka. exact Hk.
    + intros d' u' s' D' K'. injection D' as <-. rewrite K in K'. injection K' as <- <-. exists r. split; [reflexivity |]. split; [subst r; cbn [reg_id g_next gset_reg gset_next]; lia |]. split.
      * exists u, s. splits; auto. subst v. exact C5.
      * intros _. subst r. cbn [reg_id g_next gset_reg gset_next]. lia.
  - apply bind_ok in H as ([re st3] & M3 & H). apply bind_ok in H as (st4 & M4 & H). cbn in M3. injection M3 as <- <-. cbn in M4. injection M4 as <-. injection H; clear H; intros <- H. apply app_inv_head in H. subst rest.
    fold sf in A2. set (r2 := mkireg (g_next st2 + 1) (uns d)) in *. set (qb := set_reg (reg_id r2) s (low s y) qa).
    assert (St2 : step (inst2 IMMC_INST_LOAD (IMMC_OPERAND_REG sf r2) dst) qa = INext qb).
    { rewrite Ed. cbn [inst2 istep is_memory]. unfold qa at 1. cbn [ivalue]. rewrite Sf, set_reg_get, size_eqb_refl. cbn [put_result]. rewrite Sf. cbn. unfold qb, r2. cbn. now rewrite low_interp, low_low. }
    assert (Kb : keep (g_next st2) qa qb) by (apply keep_set_reg; subst r2; cbn; lia).
    destruct (Chg qb Kb Wq1) as (q3 & T1 & C1 & C2 & C3 & C4 & C5 & T2).
    assert (B1 := A2). assert (B2 := B1). apply code_at_cons in B2 as [_ B2]; [| exact NL]. assert (B3 := B2). apply code_at_cons in B3 as [_ B3]; [| exact NL]. assert (B4 := B3). apply code_at_cons in B4 as [_ B4]; [| exact NL].
    exists (set_world (set_wmem w m) q3). split.
    + eapply (runs_app _ _ _ _ _ _ _ _ _ _ _ (g_next st1)); [exact R1 | | exact N1].
      split; [| split; [reflexivity |]].
      * cbn [length]. eapply go_trans; [eapply go_next; [exact NL | exact B1 | exact St1] |]. eapply go_trans; [eapply go_next; [exact NL | exact B2 | exact St2] |].
        eapply go_trans; [eapply go_next; [exact NL | exact B3 | exact T1] |].
        eapply go_to; [eapply go_next; [exact NL | exact B4 | exact T2] |]. cbn [length]. lia.
      * split; [exact C2 | split; [exact C3 |]]. intros k Hk. cbn [i_regs set_world]. rewrite C1 by (subst r; cbn; lia). destruct Kb as (_ & _ & Kb). rewrite Kb by lia. apply Ka. exact Hk.
    + intros d' u' s' D' K'. injection D' as <-. rewrite K in K'. injection K' as <- <-. exists r2. split; [reflexivity |]. split; [subst r2; cbn [reg_id g_next gset_reg gset_next]; lia |]. split.
      * exists u, s. splits; auto. subst v. rewrite low_interp. cbn [i_regs set_world]. rewrite C1 by (subst r r2; cbn; lia). unfold qb. apply set_reg_get.
      * intros _. subst r2. cbn [reg_id g_next gset_reg gset_next]. lia.
  - apply bind_ok in H as ([re st3] & M3 & H). apply bind_ok in H as (st4 & M4 & H). cbn in M3. injection M3 as <- <-. cbn in M4. injection M4 as <-. injection H; clear H; intros <- H. apply app_inv_head in H. subst rest.
    fold sf in A2. set (r2 := mkireg (g_next st2 + 1) (uns d)) in *. set (qb := set_reg (reg_id r2) s (low s y) qa).
    assert (St2 : step (inst2 IMMC_INST_LOAD (IMMC_OPERAND_REG sf r2) dst) qa = INext qb).
    { rewrite Ed. cbn [inst2 istep is_memory]. unfold qa at 1. cbn [ivalue]. rewrite Sf, set_reg_get, size_eqb_refl. cbn [put_result]. rewrite Sf. cbn. unfold qb, r2. cbn. now rewrite low_interp, low_low. }
    assert (Kb : keep (g_next st2) qa qb) by (apply keep_set_reg; subst r2; cbn; lia).
    destruct (Chg qb Kb Wq1) as (q3 & T1 & C1 & C2 & C3 & C4 & C5 & T2).
    assert (B1 := A2). assert (B2 := B1). apply code_at_cons in B2 as [_ B2]; [| exact NL]. assert (B3 := B2). apply code_at_cons in B3 as [_ B3]; [| exact NL]. assert (B4 := B3). apply code_at_cons in B4 as [_ B4]; [| exact NL].
    exists (set_world (set_wmem w m) q3). split.
    + eapply (runs_app _ _ _ _ _ _ _ _ _ _ _ (g_next st1)); [exact R1 | | exact N1].
      split; [| split; [reflexivity |]].
      * cbn [length]. eapply go_trans; [eapply go_next; [exact NL | exact B1 | exact St1] |]. eapply go_trans; [eapply go_next; [exact NL | exact B2 | exact St2] |].
        eapply go_trans; [eapply go_next; [exact NL | exact B3 | exact T1] |].
        eapply go_to; [eapply go_next; [exact NL | exact B4 | exact T2] |]. cbn [length]. lia.
      * split; [exact C2 | split; [exact C3 |]]. intros k Hk. cbn [i_regs set_world]. rewrite C1 by (subst r; cbn; lia). destruct Kb as (_ & _ & Kb). rewrite Kb by lia. apply Ka. exact Hk.
    + intros d' u' s' D' K'. injection D' as <-. rewrite K in K'. injection K' as <- <-. exists r2. split; [reflexivity |]. split; [subst r2; cbn [reg_id g_next gset_reg gset_next]; lia |]. split.
      * exists u, s. splits; auto. subst v. rewrite low_interp. cbn [i_regs set_world]. rewrite C1 by (subst r r2; cbn; lia). unfold qb. apply set_reg_get.
      * intros _. subst r2. cbn [reg_id g_next gset_reg gset_next]. lia.
Qed.
(** ** Pointer arithmetic *)
Lemma operands_regs s a b da db ua sa ub sb st st1 st2 c1 c2 f g Sc W x W1 y W2 q p :
  regular s = true -> srt_children s = [a; b] -> srt_dtype a = Some da -> srt_dtype b = Some db -> kind da = Some (ua, sa) -> kind db = Some (ub, sb) ->
  gen_child_reg gen s 0 st = Ok (c1, f, st1) -> gen_child_reg gen s 1 st1 = Ok (c2, g, st2) -> env Sc st ->
  ev Sc a W = Ok (x, W1) -> ev Sc b W1 = Ok (y, W2) -> at_ p (c1 ++ c2) -> i_world q = W ->
  exists q' sf r sg t, f = IMMC_OPERAND_REG sf r /\ g = IMMC_OPERAND_REG sg t /\ runs_to p (c1 ++ c2) q q' (g_next st) W2 /\ stable st st2
    /\ has (g_next st) (g_next st1) q' da x f /\ has (g_next st1) (g_next st2) q' db y g /\ in_range ua sa x = true /\ in_range ub sb y = true
    /\ g_next st <= g_next st1 <= g_next st2.
Proof.
  intros R Ch Da Db Ka Kb M1 M2 En Ea Eb A Wq. destruct (two_children _ _ _ Ch) as [Ga Gb]. assert (Kd := regular_kids _ R).
  apply code_at_app in A as [A1 A2].
  destruct (child_reg _ _ _ _ _ _ _ _ _ _ _ _ _ _ _ _ M1 Ga (kid _ _ _ Kd Ga) En Ea Da Ka A1 Wq) as (q1 & sf & rr & -> & R1 & H1 & S1 & _).
  destruct (child_reg _ _ _ _ _ _ _ _ _ _ _ _ _ _ _ _ M2 Gb (kid _ _ _ Kd Gb) (env_stable _ _ _ En S1) Eb Db Kb A2 (proj1 (proj2 R1))) as (q2 & sg & t & -> & R2 & H2 & S2 & _).
  assert (N1 := st_next _ _ S1). assert (N2 := st_next _ _ S2).
  exists q2, sf, rr, sg, t. splits; auto.
  - eapply runs_app; [exact R1 | exact R2 | exact N1].
  - eapply stable_trans; eassumption.
  - eapply has_keep; [exact (proj2 (proj2 R2)) | reflexivity | exact H1].
  - eapply range; eassumption.
  - eapply range; eassumption.
Qed.
Lemma pointed_ok s a b da k nb : srt_children s = [a; b] -> srt_dtype a = Some da -> pointed_nbytes s = Ok nb -> pointed_size (srt_dtype a) = Ok k ->
  exists t, da = DTYPE_POINTER t /\ nb = k /\ 0 < k < 2 ^ 31.
Proof.
  intros Ch D H Pk. unfold pointed_nbytes in H. rewrite (proj1 (two_children _ _ _ Ch)) in H. cbn [bind] in H. unfold dty, deref in H. rewrite D in H, Pk. cbn [bind] in H.
  destruct da; try discriminate H. injection H as <-. cbn [pointed_size] in Pk. destruct (_ && _) eqn:B; [| discriminate Pk]. injection Pk as <-. exists da. rewrite nbytes_sizeof. splits; auto; lia.
Qed.
Lemma lit_int k : 0 < k < 2 ^ 31 -> forall sf, exists i, new_signed_int_immcope sf IInt k = IMMC_OPERAND_INT sf i /\ lit_value i = k.
Proof. intros B sf. eexists. split; [reflexivity |]. reflexivity. Qed.
Lemma pointer_additive_ok t e st cs st' Sc W v W' q p :
  (srt_type e = SRT_PADD_EXPR /\ t = IMMC_INST_ADD) \/ (srt_type e = SRT_PSUB_EXPR /\ t = IMMC_INST_SUB) ->
  gen_pointer_additive_expr gen t e st = Ok (cs, st') -> regular e = true -> env Sc st -> ev Sc e W = Ok (v, W') -> at_ p cs -> i_world q = W ->
  concl e st st' p cs q W' v.
Proof.
  intros T H R En E A Wq. destruct e as [et od pl ch]. cbn [srt_type] in T.
  assert (exists d a b db x y W1 k, od = Some d /\ ch = [a; b] /\ alike (Some d) (srt_dtype a) = true /\ pointer d = true /\ srt_dtype b = Some db /\ integer db = true /\ is_char db = false
    /\ pointed_size (srt_dtype a) = Ok k /\ ev Sc a W = Ok (x, W1) /\ ev Sc b W1 = Ok (y, W') /\ advance x (match t with IMMC_INST_ADD => y * k | _ => - (y * k) end) = Ok v)
    as (d & a & b & db & x & y & W1 & k & -> & -> & Al & Pd & Db & Ib & Wi & Pk & Ea & Eb & Av).
  { apply regular_regular_node in R. destruct T as [[-> ->] | [-> ->]]; cbn [eval srttype_beq] in E;
    (destruct od as [d |]; [| discriminate E]; destruct ch as [| a [| b [| ? ?]]]; try discriminate E; einv E; injection E as <- <-;
     apply andb_prop in Z as [Z Ib]; apply andb_prop in Z as [Za Zb]; cbn [regular_node] in R; unfold wide_index in R;
     destruct (srt_dtype b) as [db |] eqn:Db; [| discriminate R]; apply negb_true_iff in R; eexists d, a, b, db, _, _, _, _; splits; try reflexivity; eassumption). }
  unfold gen_pointer_additive_expr in H. apply bind_ok in H as ([[c1 f] st1] & M1 & H). apply bind_ok in H as ([[c2 g] st2] & M2 & H).
  apply bind_ok in H as ([dst st3] & M3 & H). apply bind_ok in H as (nb & M4 & H). apply bind_ok in H as (st4 & M5 & H). injection H as <- <-.
  destruct (alike_kind _ _ Al) as (da & u & s & Da & K & Ka & _).
  destruct (pointed_ok (Srt et (Some d) pl [a; b]) _ _ _ _ _ eq_refl Da M4 Pk) as (tp & -> & -> & Bk).
  destruct (integer_kind _ Ib) as (ub & sb & Kb).
  replace (c1 ++ c2 ++ [inst3 IMMC_INST_MUL g g (new_signed_int_immcope (ope_suffix g) IInt k); inst3 t dst f g])
     with (((c1 ++ c2) ++ [inst3 IMMC_INST_MUL g g (new_signed_int_immcope (ope_suffix g) IInt k)]) ++ [inst3 t dst f g]) in A |- * by now rewrite <- !app_assoc.
  assert (A0 := proj1 (code_at_app _ _ _ _ A)). assert (A1 := proj2 (code_at_app _ _ _ _ A0)). apply code_at_app in A0 as [A0 _].
  edestruct operands_regs as (q1 & sf & rr & sg & rt & Ef & Eg & R1 & S1 & H1 & H2 & Rx & Ry & Nx); [exact R | reflexivity | exact Da | exact Db | exact Ka | exact Kb | exact M1 | exact M2 | exact En | exact Ea | exact Eb | exact A0 | exact Wq |]. subst f g.
  destruct (has_exact _ _ _ _ _ _ _ _ _ H2 Kb Ib Ry) as (Vb & Sb & Ub).
  destruct (lit_int k Bk (ope_suffix (IMMC_OPERAND_REG sg rt))) as (i & Ei & Vi). rewrite Ei in A1, A |- *. cbn [ope_suffix] in *.
  apply advance_ok in Av as (Ev & Bv & Bs).
  assert (Bm : - 2 ^ 31 < y * k < 2 ^ 31) by (clear -Bs; destruct t; lia).
  assert (Im : in_range ub sb (y * k) = true).
  { clear -Ib Kb Bm Wi Ry Bk. destruct db; try discriminate Ib; try discriminate Wi; injection Kb as <- <-; unfold in_range in *; cbn [nbits] in *; try (assert (0 <= y) by lia; assert (0 <= y * k) by (apply Z.mul_nonneg_nonneg; lia)); lia. }
  set (q2 := set_reg (reg_id rt) sb (low sb (y * k)) q1).
  assert (St : step (inst3 IMMC_INST_MUL (IMMC_OPERAND_REG sg rt) (IMMC_OPERAND_REG sg rt) (IMMC_OPERAND_INT sg i)) q1 = INext q2).
  { cbn [inst3 istep]. unfold common. cbn [operand_size operand_unsigned]. rewrite Sb, larger_id, Vb. cbn [ivalue]. rewrite Vi. cbn [binop put_result]. rewrite Sb. unfold q2. now rewrite low_interp. }
  assert (Hf := H1). destruct (pointer_value _ _ _ _ _ _ _ H1) as (va & Va & Sa & La).
  assert (K2 : keep (g_next st1) q1 q2) by (apply keep_set_reg; destruct H2 as ((H2 & _) & _); exact H2).
  assert (V2 : ivalue q2 (IMMC_OPERAND_REG sf rr) = Some va).
  { destruct Hf as ((_ & L) & _). rewrite <- Va. cbn [ivalue]. destruct K2 as (_ & _ & K2). now rewrite K2. }
  assert (Vg : ivalue q2 (IMMC_OPERAND_REG sg rt) = Some (y * k)).
  { unfold q2. rewrite ivalue_set by exact Sb. rewrite Ub. f_equal. apply low_in_range; [apply low_low | exact Im]. }
  assert (R2 : runs_to p ((c1 ++ c2) ++ [inst3 IMMC_INST_MUL (IMMC_OPERAND_REG sg rt) (IMMC_OPERAND_REG sg rt) (IMMC_OPERAND_INT sg i)]) q q2 (g_next st) W').
  { eapply (runs_app _ _ _ _ _ _ _ _ _ _ _ (g_next st1)); [exact R1 | | exact (proj1 Nx)]. eapply runs_step; [exact NL | exact A1 | exact St | exact (proj1 (proj2 R1)) | exact K2]. }
  destruct d; try discriminate Pd. injection K as <- <-.
  assert (Cm : common (IMMC_OPERAND_REG sf rr) (IMMC_OPERAND_REG sg rt) = Some S8).
  { unfold common. rewrite Sa. cbn [operand_size]. rewrite Sb. destruct sb; reflexivity. }
  destruct (dest_facts (Srt et (Some (DTYPE_POINTER d)) pl [a; b]) _ _ _ _ _ eq_refl M3 M5) as (Ed & _).
  eapply (finish (Srt et (Some (DTYPE_POINTER d)) pl [a; b])); [reflexivity | reflexivity | exact R2 | exact S1 | exact M3 | exact M5 | exact A | | apply keep_refl | exact (proj1 (proj2 R2)) |].
  - instantiate (1 := interp (uns (DTYPE_POINTER d)) S8 (match t with IMMC_INST_ADD => va + y * k | _ => va - y * k end)).
    destruct T as [[_ ->] | [_ ->]]; cbn [inst3 istep]; rewrite Cm, V2, Vg; cbn [binop]; rewrite Ed; reflexivity.
  - rewrite low_interp, Ev. destruct T as [[_ ->] | [_ ->]]; [| rewrite Z.add_opp_r]; [apply low_add | apply low_sub]; auto.
Qed.
Lemma pointer_diff_ok e st cs st' Sc W v W' q p :
  srt_type e = SRT_PDIFF_EXPR ->
  gen_pointer_diff_expr gen e st = Ok (cs, st') -> regular e = true -> env Sc st -> ev Sc e W = Ok (v, W') -> at_ p cs -> i_world q = W ->
  concl e st st' p cs q W' v.
Proof.
  intros T H R En E A Wq. destruct e as [et od pl ch]. cbn [srt_type] in T. subst et.
  assert (exists d a b x y W1 k u s, od = Some d /\ ch = [a; b] /\ alike (srt_dtype a) (srt_dtype b) = true /\ integer d = true /\ is_char d = false
    /\ pointed_size (srt_dtype a) = Ok k /\ ev Sc a W = Ok (x, W1) /\ ev Sc b W1 = Ok (y, W') /\ kind d = Some (u, s) /\ v = (x - y) / k
    /\ - 2 ^ 31 <= x - y < 2 ^ 31 /\ (x - y) mod k = 0 /\ in_range u s v = true)
    as (d & a & b & x & y & W1 & k & u & s & -> & -> & Al & Id & Wi & Pk & Ea & Eb & K & Ev & Bd & Md & Rv).
  { apply regular_regular_node in R. cbn [eval] in E. destruct od as [d |]; [| discriminate E]; destruct ch as [| a [| b [| ? ?]]]; try discriminate E. einv E.
    cbv zeta in E. destruct (kind d) as [[u s] |] eqn:K; [| discriminate E]. match type of E with (if ?c then _ else _) = _ => destruct c eqn:B; [| discriminate E] end. injection E as <- <-.
    apply andb_prop in Z as [Za Zb]; cbn [regular_node] in R; apply negb_true_iff in R.
    apply andb_prop in B as [B B5]. apply andb_prop in B as [B B4]. apply andb_prop in B as [B B3]. apply andb_prop in B as [_ B2].
    eexists d, a, b, _, _, _, _, u, s; splits; try reflexivity; try eassumption; [apply Z.leb_le in B2; exact B2 | apply Z.ltb_lt in B3; exact B3 | apply Z.eqb_eq in B4; exact B4]. }
  unfold gen_pointer_diff_expr in H. apply bind_ok in H as ([[c1 f] st1] & M1 & H). apply bind_ok in H as ([[c2 g] st2] & M2 & H).
  apply bind_ok in H as ([dst st3] & M3 & H). apply bind_ok in H as (nb & M4 & H). apply bind_ok in H as (st4 & M5 & H). injection H as <- <-.
  destruct (srt_dtype a) as [da |] eqn:Da; [| discriminate Al].
  destruct (pointed_ok (Srt SRT_PDIFF_EXPR (Some d) pl [a; b]) a b da k nb eq_refl Da M4 ltac:(now rewrite Da)) as (tp & -> & -> & Bk).
  destruct (alike_kind _ _ Al) as (db & ua & sa & Db & Ka & Kb & _). injection Ka as <- <-.
  rewrite app_assoc in A |- *.
  assert (A0 := proj1 (code_at_app _ _ _ _ A)).
  edestruct operands_regs as (q1 & sf & rr & sg & rt & Ef & Eg & R1 & S1 & H1 & H2 & Rx & Ry & Nx); [exact R | reflexivity | exact Da | exact Db | reflexivity | exact Kb | exact M1 | exact M2 | exact En | exact Ea | exact Eb | exact A0 | exact Wq |]. subst f g.
  destruct (has_facts _ _ _ _ _ _ H1) as (u1 & s1 & va & K1 & Sa & _ & Va & La). injection K1 as <- <-.
  destruct (has_facts _ _ _ _ _ _ H2) as (u2 & s2 & vb & K2 & Sb & _ & Vb & Lb). rewrite Kb in K2. injection K2 as <- <-.
  destruct (dest_facts (Srt SRT_PDIFF_EXPR (Some d) pl [a; b]) _ _ _ _ _ eq_refl M3 M5) as (Ed & _).
  destruct (lit_int k Bk (ope_suffix dst)) as (i & Ei & Vi). rewrite Ei in A |- *. clear Ei.
  assert (Ud := uns_kind _ _ _ K (integer_pointer _ Id)). assert (Sf := suffix_kind _ _ _ K).
  assert (Rd : in_range u s (x - y) = true).
  { clear -Id Wi K Bd Md Rv Ev Bk. assert (x - y = k * v) by (subst v; apply Z.div_exact in Md; lia).
    destruct d; try discriminate Id; try discriminate Wi; injection K as <- <-; unfold in_range in *; cbn [nbits] in *; try (assert (0 <= v) by lia; assert (0 <= k * v) by (apply Z.mul_nonneg_nonneg; lia)); lia. }
  assert (Rk : in_range u s k = true).
  { clear -Id Wi K Bk. destruct d; try discriminate Id; try discriminate Wi; injection K as <- <-; unfold in_range; cbn [nbits]; lia. }
  assert (Eq : Z.quot (x - y) k = (x - y) / k).
  { clear -Md Bk. apply Z.div_exact in Md; [| lia]. rewrite Md at 1. rewrite Z.mul_comm, Z.quot_mul by lia. reflexivity. }
  set (q2 := set_reg (g_next st2 + 1) s (low s (x - y)) q1).
  assert (St : step (inst3 IMMC_INST_SUB dst (IMMC_OPERAND_REG sf rr) (IMMC_OPERAND_REG sg rt)) q1 = INext q2).
  { cbn [inst3 istep]. unfold common. rewrite Sa, Sb, larger_id, Va, Vb. cbn [binop]. rewrite Ed. cbn [put_result]. rewrite Sf. cbn [reg_id]. unfold q2. do 2 f_equal.
    rewrite <- (low_low_le s S8) by apply nbits_64. rewrite low_interp, low_low_le by apply nbits_64. rewrite <- (low_low_le s S8 (x - y)) by apply nbits_64. rewrite <- (low_low_le s S8 (va - vb)) by apply nbits_64. f_equal. now apply low_sub. }
  change [inst3 IMMC_INST_SUB dst (IMMC_OPERAND_REG sf rr) (IMMC_OPERAND_REG sg rt); inst3 IMMC_INST_DIV dst dst (IMMC_OPERAND_INT (ope_suffix dst) i)]
    with ([inst3 IMMC_INST_SUB dst (IMMC_OPERAND_REG sf rr) (IMMC_OPERAND_REG sg rt)] ++ [inst3 IMMC_INST_DIV dst dst (IMMC_OPERAND_INT (ope_suffix dst) i)]) in A |- *.
  rewrite app_assoc in A |- *.
  assert (A1 := proj2 (code_at_app _ _ _ _ (proj1 (code_at_app _ _ _ _ A)))).
  assert (K2 : keep (g_next st2) q1 q2) by (apply keep_set_reg; clear; lia).
  assert (R2 : runs_to p ((c1 ++ c2) ++ [inst3 IMMC_INST_SUB dst (IMMC_OPERAND_REG sf rr) (IMMC_OPERAND_REG sg rt)]) q q2 (g_next st) W').
  { eapply (runs_app _ _ _ _ _ _ _ _ _ _ _ (g_next st2)); [exact R1 | | clear -Nx; lia]. eapply runs_step; [exact NL | exact A1 | exact St | exact (proj1 (proj2 R1)) | exact K2]. }
  assert (Sd : operand_size dst = Some s) by (rewrite Ed; exact Sf).
  assert (Vd : ivalue q2 dst = Some (x - y)).
  { rewrite Ed. unfold q2. etransitivity; [apply (ivalue_set (mkireg (g_next st2 + 1) (uns d))), Sf |]. cbn [reg_unsigned]. rewrite Ud. f_equal. apply low_in_range; [apply low_low | exact Rd]. }
  assert (Du : operand_unsigned dst = u) by (rewrite Ed; exact Ud).
  eapply (finish (Srt SRT_PDIFF_EXPR (Some d) pl [a; b])); [reflexivity | exact K | exact R2 | exact S1 | exact M3 | exact M5 | exact A | | apply keep_refl | exact (proj1 (proj2 R2)) |].
  - instantiate (1 := interp u s (Z.quot (x - y) k)).
    cbn [inst3 istep]. unfold common. rewrite Sd. replace (operand_size (IMMC_OPERAND_INT (ope_suffix dst) i)) with (Some s) by (symmetry; rewrite Ed; exact Sf).
    rewrite larger_id, Vd. cbn [ivalue]. rewrite Vi. cbn [binop]. rewrite Du, (in_range_interp u s (x - y) Rd), (in_range_interp u s k Rk), Eq.
    rewrite <- Ev, Rv. replace (k =? 0) with false by (clear -Bk; lia). reflexivity.
  - now rewrite low_interp, Eq, <- Ev.
Qed.
End Sim.
