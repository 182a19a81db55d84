(** The code of an expression computes its value: the other operators *)
From Verif Require Import Base SrtModel ImmcModel ImmcgenModel X64Isa X64Decode OpSpec TypeSpec TypeProofs CSem ImmcSem GenSpec ElabProofs GenProofs IsaProofs LabelSpec ExprProofs ExprProofs2 ExprProofs3.
Open Scope Z_scope.

Ltac einv H :=
  repeat match type of H with
  | bind (check ?b) _ = Ok _ =>
      let Z := fresh "Z" in destruct b eqn:Z; cbn [check bind] in H; [| discriminate H]
  | bind _ _ = Ok _ => let x := fresh "x" in let M := fresh "V" in apply bind_ok in H as (x & M & H); cbv beta in H
  | (let 'pair _ _ := ?x in _) = _ => is_var x; destruct x
  end; cbv beta iota in H.

(** only the stored bytes of a value count *)
Lemma store_bytes_mod n : forall m a v w, v mod 256 ^ Z.of_nat n = w mod 256 ^ Z.of_nat n -> store_bytes m a n v = store_bytes m a n w.
Proof.
  induction n as [| n IH]; intros m a v w H; [reflexivity |]. cbn [store_bytes].
  rewrite Nat2Z.inj_succ, Z.pow_succ_r in H by lia. assert (0 < 256 ^ Z.of_nat n) by (apply Z.pow_pos_nonneg; lia).
  rewrite !(Z.rem_mul_r _ 256) in H by lia.
  assert (B1 := Z.mod_pos_bound v 256 ltac:(lia)). assert (B2 := Z.mod_pos_bound w 256 ltac:(lia)).
  assert (E1 : v mod 256 = w mod 256) by lia. rewrite E1. apply IH. lia.
Qed.
Lemma store_low m s a v w : low s v = low s w -> store m s a v = store m s a w.
Proof.
  unfold store, low. intros H. destruct (valid _ _ _); [| reflexivity]. f_equal. apply store_bytes_mod.
  destruct s; exact H.
Qed.

Section Sim.
Variables (call : caller) (P : places) (params : list (size * Z)) (C : list immc).
Hypothesis NL : NoDup (labels C).
Hypothesis PP : places_ok P.
Notation go := (reaches call (p_label P) (p_frame P) params C).
Notation step := (istep call (p_label P) (p_frame P) params).
Notation at_ := (code_at C).
Notation ev := (eval call P).
Notation addr := (iaddress (p_label P) (p_frame P)).
Notation runs_to := (runs_to call P params C).
Notation concl := (concl call P params C).
Notation range := (eval_range call P PP).
Variable gen : option dtype -> srt -> gst -> gres.
Hypothesis G : forall od s st cs st', regular s = true -> gen od s st = Ok (cs, st') -> stable st st'.
Hypothesis X : simulated call P params C gen.
Notation child_int := (child_int_ok call P params C NL PP gen G X).
Notation child_reg := (child_reg_ok call P params C NL PP gen G X).
Notation child_ptr := (child_ptr_ok call P params C PP gen G X).
Notation jmp_cond := (jmp_cond_ok call P params C NL PP gen G X).

Notation finish := (finish call P params C NL gen G).
Notation operands := (operands call P params C NL PP gen G X).

(** ** Unary operators *)
Lemma neg_not_ok i e st cs st' Sc W v W' q p :
  match srt_type e with SRT_NEG_EXPR => i = IMMC_INST_NEG | SRT_NOT_EXPR => i = IMMC_INST_NOT | _ => False end ->
  gen_neg_not_expr gen i e st = Ok (cs, st') -> regular e = true -> env Sc st -> ev Sc e W = Ok (v, W') -> at_ p cs -> i_world q = W ->
  concl e st st' p cs q W' v.
Proof.
  intros T H R En E A Wq. destruct e as [et od pl ch]. cbn [srt_type] in T.
  assert (exists d a x w, od = Some d /\ ch = [a] /\ alike (Some d) (srt_dtype a) = true /\ ev Sc a W = Ok (x, W') /\ unop_spec i x = Some w /\ fit d w = Ok v)
    as (d & a & x & w & -> & -> & Aa & Ea & Uw & Fw).
  { destruct et; try contradiction; subst i; cbn [eval] in E; (destruct od as [d |]; [| discriminate E]; destruct ch as [| a [| ? ?]]; try discriminate E; einv E;
    apply andb_prop in Z as [Za Zb]; injection E as <- <-; eexists d, a, _, _; splits; try reflexivity; eassumption). }
  unfold gen_neg_not_expr in H. apply bind_ok in H as ([[c1 f] st1] & M1 & H).
  apply bind_ok in H as ([dst st3] & M3 & H). apply bind_ok in H as (st4 & M4 & H). injection H as <- <-.
  destruct (alike_kind _ _ Aa) as (da & u & s & Da & K & Ka & _). assert (A0 := proj1 (code_at_app _ _ _ _ A)).
  destruct (child_int _ _ _ _ _ _ _ _ _ _ _ _ _ _ _ _ M1 eq_refl (kid _ 0%nat _ (regular_kids _ R) eq_refl) En Ea Da Ka A0 Wq) as (q1 & R1 & H1 & S1 & _).
  destruct (has_facts _ _ _ _ _ _ H1) as (ua & sa & va & Ka' & Sa & Ua & Va & La). rewrite Ka in Ka'. injection Ka' as <- <-.
  destruct (fit_low _ _ _ _ _ K Fw) as [Lw _].
  destruct et; try contradiction; subst i; cbn in Uw; injection Uw as <-;
  (eapply (finish (Srt _ (Some d) pl [a]) d u s); [reflexivity | exact K | exact R1 | exact S1 | exact M3 | exact M4 | exact A | | apply keep_refl | exact (proj1 (proj2 R1)) |];
   [cbn [inst2 istep]; rewrite Va; reflexivity |]; rewrite Lw).
  - now apply low_opp.
  - unfold Z.lnot, Z.pred. apply low_add; [now apply low_opp | reflexivity].
Qed.
Lemma logical_not_ok e st cs st' Sc W v W' q p :
  srt_type e = SRT_LNOT_EXPR ->
  gen_logical_not_expr gen e st = Ok (cs, st') -> regular e = true -> env Sc st -> ev Sc e W = Ok (v, W') -> at_ p cs -> i_world q = W ->
  concl e st st' p cs q W' v.
Proof.
  intros T H R En E A Wq. destruct e as [et od pl ch]. cbn [srt_type] in T. subst et. cbn [eval] in E.
  destruct od as [[] |]; try discriminate E. destruct ch as [| a [| ? ?]]; try discriminate E. einv E. injection E as <- <-.
  unfold gen_logical_not_expr in H. apply bind_ok in H as ([[c1 f] st1] & M1 & H).
  apply bind_ok in H as ([dst st3] & M3 & H). apply bind_ok in H as (st4 & M4 & H). injection H as <- <-.
  unfold scalar_type in Z. destruct (srt_dtype a) as [da |] eqn:Da; [| discriminate Z]. destruct (kind da) as [[u s] |] eqn:Ka; [| discriminate Z].
  assert (A0 := proj1 (code_at_app _ _ _ _ A)).
  edestruct (child_reg) as (q1 & sf & rr & Ef & R1 & H1 & S1 & _); [exact M1 | reflexivity | exact (kid _ 0%nat _ (regular_kids _ R) eq_refl) | exact En | exact V | exact Da | exact Ka | exact A0 | exact Wq |]. subst f.
  destruct (has_facts _ _ _ _ _ _ H1) as (ua & sa & va & Ka' & Sa & Ua & Va & La). rewrite Ka in Ka'. injection Ka' as <- <-.
  assert (Rg := range _ _ _ _ _ _ _ _ V Da Ka).
  assert (Cm : common (IMMC_OPERAND_REG sf rr) (new_signed_int_immcope sf IInt 0) = Some s).
  { unfold common. rewrite Sa. cbn. cbn in Sa. now rewrite Sa, larger_id. }
  eapply (finish (Srt SRT_LNOT_EXPR (Some DTYPE_INT) pl [a]) DTYPE_INT false S4); [reflexivity | reflexivity | exact R1 | exact S1 | exact M3 | exact M4 | exact A | | apply keep_refl | exact (proj1 (proj2 R1)) | reflexivity].
  cbn [ope_suffix inst3 istep]. rewrite Cm, Va. cbn [ivalue new_signed_int_immcope]. change (lit_value (new_signed IInt 0)) with 0. cbn [compare].
  assert (Iz : interp (operand_unsigned (IMMC_OPERAND_REG sf rr)) s 0 = 0) by (apply in_range_interp; destruct (operand_unsigned _), s; reflexivity).
  rewrite Iz, (zero_test _ _ _ _ _ Rg La). reflexivity.
Qed.
Lemma positive_ok e st cs st' Sc W v W' q p :
  srt_type e = SRT_POS_EXPR ->
  gen_positive_expr gen e st = Ok (cs, st') -> regular e = true -> env Sc st -> ev Sc e W = Ok (v, W') -> at_ p cs -> i_world q = W ->
  concl e st st' p cs q W' v.
Proof.
  intros T H R En E A Wq. destruct e as [et od pl ch]. cbn [srt_type] in T. subst et. cbn [eval] in E.
  destruct od as [d |]; try discriminate E. destruct ch as [| a [| ? ?]]; try discriminate E. einv E. apply andb_prop in Z as [Za Zi].
  unfold gen_positive_expr in H. apply bind_ok in H as ([[c1 f] st1] & M1 & H). apply bind_ok in H as (st4 & M4 & H). injection H as <- <-.
  assert (Ua := alike_uns). destruct (alike_kind _ _ Za) as (da & u & s & Da & K & Ka & _). specialize (Ua _ _ _ _ _ Za Da K).
  edestruct (child_reg) as (q1 & sf & rr & Ef & R1 & H1 & S1 & _); [exact M1 | reflexivity | exact (kid _ 0%nat _ (regular_kids _ R) eq_refl) | exact En | exact E | exact Da | exact Ka | exact A | exact Wq |]. subst f.
  cbn in M4. injection M4 as <-. exists q1. split; [exact R1 |]. intros d' u' s' D' K'. injection D' as <-. rewrite K in K'. injection K' as <- <-.
  destruct H1 as [B (u' & s' & K' & Sf & Ur & Rr)]. rewrite Ka in K'. injection K' as <- <-. exists rr. split; [reflexivity |]. split; [cbn [g_next gset_reg]; destruct S1; lia |]. split; [| discriminate].
  exists u, s. splits; auto. congruence.
Qed.

(** ** Literals and variables *)
Lemma primary_ok e st cs st' Sc W v W' q p :
  srt_type e = SRT_ILITERAL_EXPR \/ srt_type e = SRT_IDENT_EXPR ->
  gen_primary_expr e st = Ok (cs, st') -> regular e = true -> env Sc st -> ev Sc e W = Ok (v, W') -> at_ p cs -> i_world q = W ->
  concl e st st' p cs q W' v.
Proof.
  intros T H R En E A Wq. destruct e as [et od pl ch]. cbn [srt_type] in T. unfold gen_primary_expr in H.
  apply bind_ok in H as (src & M1 & H). apply bind_ok in H as ([dst st3] & M3 & H). apply bind_ok in H as (st4 & M4 & H). injection H as <- <-.
  change [inst2 IMMC_INST_LOAD dst src] with ([] ++ [inst2 IMMC_INST_LOAD dst src]) in *.
  destruct T as [-> | ->]; cbn [srt_type] in M1; cbn [eval] in E; (destruct od as [d |]; [| discriminate E]); destruct pl; try discriminate E.
  - destruct (kind d) as [[u s] |] eqn:K; [| discriminate E]. einv E. injection E as <- <-. cbn in M1. injection M1 as <-.
    eapply (finish (Srt _ (Some d) _ ch) d u s); [reflexivity | exact K | apply runs_nil, Wq | apply stable_refl | exact M3 | exact M4 | exact A | | apply keep_refl | exact Wq | reflexivity].
    reflexivity.
  - einv E. injection E as <- <-. unfold load_as in V0. destruct (kind d) as [[u s] |] eqn:K; [| discriminate V0]. destruct (load _ _ _) as [w |] eqn:Ld; [| discriminate V0]. injection V0 as <-.
    destruct (ident_address P Sc st (Srt SRT_IDENT_EXPR (Some d) (SPName n) ch) n _ _ En eq_refl M1 V) as [Mo Ad].
    destruct (dest_facts (Srt SRT_IDENT_EXPR (Some d) (SPName n) ch) d _ _ _ _ eq_refl M3 M4) as (Ed & _).
    eapply (finish (Srt SRT_IDENT_EXPR (Some d) (SPName n) ch) d u s); [reflexivity | exact K | apply runs_nil, Wq | apply stable_refl | exact M3 | exact M4 | exact A | | apply keep_refl | exact Wq |].
    + cbn [inst2 istep]. rewrite Mo, Ad, Ed. cbn [operand_size]. rewrite (suffix_kind _ _ _ K), Wq, Ld. reflexivity.
    + now rewrite low_interp.
Qed.
(** ** Addresses *)
Lemma indirection_ok e st cs st' Sc W v W' q p :
  srt_type e = SRT_INDIR_EXPR ->
  gen_indirection_expr gen e st = Ok (cs, st') -> regular e = true -> env Sc st -> ev Sc e W = Ok (v, W') -> at_ p cs -> i_world q = W ->
  concl e st st' p cs q W' v.
Proof.
  intros T H R En E A Wq. destruct e as [et od pl ch]. cbn [srt_type] in T. subst et. cbn [eval] in E.
  destruct od as [d |]; try discriminate E. destruct ch as [| a [| ? ?]]; try discriminate E. einv E. injection E as <- <-.
  unfold gen_indirection_expr in H. apply bind_ok in H as ([[c1 f] st1] & M1 & H). apply bind_ok in H as ([dst st3] & M3 & H). apply bind_ok in H as (st4 & M4 & H). injection H as <- <-.
  destruct (srt_dtype a) as [da |] eqn:Da; [| discriminate Z]. assert (A0 := proj1 (code_at_app _ _ _ _ A)).
  edestruct (child_ptr) as (q1 & R1 & Mo & S1 & Ad); [exact M1 | reflexivity | exact (kid _ 0%nat _ (regular_kids _ R) eq_refl) | exact (regular_regular_node _ R) | exact En | exact V | exact Da | exact Z | exact A0 | exact Wq |].
  specialize (Ad _ (keep_refl _ _)). unfold load_as in V0. destruct (kind d) as [[u s] |] eqn:K; [| discriminate V0]. destruct (load _ _ _) as [y |] eqn:Ld; [| discriminate V0]. injection V0 as <-.
  destruct (dest_facts (Srt SRT_INDIR_EXPR (Some d) pl [a]) d _ _ _ _ eq_refl M3 M4) as (Ed & _). assert (Wq1 := proj1 (proj2 R1)).
  eapply (finish (Srt SRT_INDIR_EXPR (Some d) pl [a]) d u s); [reflexivity | exact K | exact R1 | exact S1 | exact M3 | exact M4 | exact A | | apply keep_refl | exact Wq1 |].
  - cbn [inst2 istep]. rewrite Mo, Ad, Ed. cbn [operand_size]. rewrite (suffix_kind _ _ _ K), Wq1, Ld. reflexivity.
  - now rewrite low_interp.
Qed.
Lemma assignment_ok e st cs st' Sc W v W' q p :
  srt_type e = SRT_ASSIGN_EXPR ->
  gen_assignment_expr gen e st = Ok (cs, st') -> regular e = true -> env Sc st -> ev Sc e W = Ok (v, W') -> at_ p cs -> i_world q = W ->
  concl e st st' p cs q W' v.
Proof.
  intros T H R En E A Wq. destruct e as [et od pl ch]. cbn [srt_type] in T. subst et. cbn [eval] in E.
  destruct od as [d |]; try discriminate E. destruct ch as [| a [| b [| ? ?]]]; try discriminate E. einv E. injection E as <- <-. apply andb_prop in Z as [Zb Za].
  unfold gen_assignment_expr in H. apply bind_ok in H as ([[c1 f] st1] & M1 & H). apply bind_ok in H as ([[c2 ptr] st2] & M2 & H). apply bind_ok in H as (st4 & M4 & H). injection H as <- <-.
  destruct (srt_dtype a) as [da |] eqn:Da; [| discriminate Za]. assert (Ub := alike_uns). destruct (alike_kind _ _ Zb) as (db & u & s & Db & K & Kb & _). specialize (Ub _ _ _ _ _ Zb Db K).
  apply code_at_app in A as [A1 A]. apply code_at_app in A as [A2 A3]. assert (Kd := regular_kids _ R).
  edestruct (child_reg) as (q1 & sf & rr & Ef & R1 & H1 & S1 & L1); [exact M1 | reflexivity | exact (kid _ 1%nat _ Kd eq_refl) | exact En | exact V | exact Db | exact Kb | exact A1 | exact Wq |]. subst f.
  edestruct (child_ptr) as (q2 & R2 & Mo & S2 & Ad); [exact M2 | reflexivity | exact (kid _ 0%nat _ Kd eq_refl) | exact (regular_regular_node _ R) | exact (env_stable _ _ _ En S1) | exact V0 | exact Da | exact Za | exact A2 | exact (proj1 (proj2 R1)) |].
  specialize (Ad _ (keep_refl _ _)). assert (H1' := has_keep _ _ _ _ _ _ _ _ (proj2 (proj2 R2)) ltac:(reflexivity) H1).
  destruct (has_facts _ _ _ _ _ _ H1') as (ua & sa & va & Ka' & Sa & Ua & Va & La). rewrite Kb in Ka'. injection Ka' as <- <-.
  unfold store_as in V1. rewrite K in V1. destruct (store _ _ _ _) as [m |] eqn:Sm; [| discriminate V1]. injection V1 as <-.
  assert (Sm' : store (w_mem w0) s z0 va = Some m) by (rewrite <- Sm; now apply store_low).
  assert (Wq2 := proj1 (proj2 R2)). cbn in M4. injection M4 as <-.
  exists (set_world (set_wmem w0 m) q2). split.
  - eapply (runs_app _ _ _ _ _ _ _ _ _ _ _ (g_next st1)); [exact R1 | | exact (st_next _ _ S1)].
    eapply (runs_app _ _ _ _ _ _ _ _ _ _ _ (g_next st1)); [exact R2 | | reflexivity].
    eapply runs_step; [exact NL | exact A3 | | reflexivity | apply keep_set_world]. cbn [inst2 istep]. rewrite Ad, Sa, Va, Wq2, Sm'. reflexivity.
  - intros d' u' s' D' K'. injection D' as <-. rewrite K in K'. injection K' as <- <-. destruct H1' as [B (u' & s' & K' & Sf & Ur & Rr)]. rewrite Kb in K'. injection K' as <- <-.
    exists rr. split; [reflexivity |]. split; [cbn [g_next gset_reg]; assert (N2 := st_next _ _ S2); clear -B N2; lia |]. split.
    + exists u, s. splits; auto. congruence.
    + cbn [computed_last]. intros Cl. cbn [g_next gset_reg]. destruct a as [[] ad ap ac]; try discriminate Cl. destruct ac as [| [[] ad2 ap2 ac2] [| ? ?]]; try discriminate Cl.
      assert (Es : st2 = st1). { cbn in M2. apply bind_ok in M2 as (o & _ & M2). now injection M2 as _ _ <-. } rewrite Es.
      apply L1. apply orb_prop in Cl as [Cl | Cl]; [| exact Cl]. destruct b as [[] bd bp bc]; try discriminate Cl; reflexivity.
Qed.
End Sim.
