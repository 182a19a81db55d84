(** The code of an expression computes its value: calls, and all expressions *)
From Verif Require Import Base SrtModel ImmcModel ImmcgenModel X64Isa X64Decode OpSpec TypeSpec TypeProofs CSem ImmcSem GenSpec ElabProofs GenProofs IsaProofs LabelSpec ExprProofs ExprProofs2 ExprProofs3 ExprProofs4 ExprProofs5 ExprProofs6 ExprProofs7.
Open Scope Z_scope.

Ltac einv H :=
  repeat match type of H with
  | bind (check ?b) _ = Ok _ =>
      let Z := fresh "Z" in destruct b eqn:Z; cbn [check bind] in H; [| discriminate H]
  | bind _ _ = Ok _ => let x := fresh "x" in let M := fresh "V" in apply bind_ok in H as (x & M & H); cbv beta in H
  | (let 'pair _ _ := ?x in _) = _ => is_var x; destruct x
  end; cbv beta iota in H.

Lemma collect_nth slots vs k : (forall i, (i < length vs)%nat -> slots (k + Z.of_nat i) = nth_error vs i) -> collect_args slots (length vs) k = Some vs.
Proof.
  revert k. induction vs as [| v vs IH]; intros k H; cbn [length collect_args]; [reflexivity |].
  assert (H0 := H 0%nat ltac:(cbn; lia)). rewrite Z.add_0_r in H0. cbn in H0. rewrite H0, IH; [reflexivity |].
  intros i L. change (nth_error vs i) with (nth_error (v :: vs) (S i)). rewrite <- (H (S i)) by (cbn; lia). f_equal. lia.
Qed.
Section Sim.
Variables (call : caller) (P : places) (params : list (size * Z)) (C : list immc).
Hypothesis NL : NoDup (labels C).
Hypothesis PP : places_ok P.
Notation go := (reaches call (p_label P) (p_frame P) params C).
Notation step := (istep call (p_label P) (p_frame P) params).
Notation at_ := (code_at C).
Notation ev := (eval call P).
Notation addr := (iaddress (p_label P) (p_frame P)).
Notation runs_to := (runs_to call P params C).
Notation concl := (concl call P params C).
Notation range := (eval_range call P PP).
Variable gen : option dtype -> srt -> gst -> gres.
Hypothesis G : forall od s st cs st', regular s = true -> gen od s st = Ok (cs, st') -> stable st st'.
Hypothesis X : simulated call P params C gen.
Notation child_int := (child_int_ok call P params C NL PP gen G X).
Notation child_reg := (child_reg_ok call P params C NL PP gen G X).
Notation child_ptr := (child_ptr_ok call P params C PP gen G X).
Notation jmp_cond := (jmp_cond_ok call P params C NL PP gen G X).

Notation finish := (finish call P params C NL gen G).
Notation operands := (operands call P params C NL PP gen G X).

(** ** Calls *)
(** the arguments are evaluated from the last to the first *)
Fixpoint evs (Sc : scopes) (l : list srt) (W : world) {struct l} : res (list (size * Z) * world) :=
  match l with
  | [] => Ok ([], W)
  | a :: r =>
      do (vs, W) <- evs Sc r W; do (v, W) <- ev Sc a W;
      match srt_dtype a with
      | Some c => match kind c with Some (_, s) => Ok ((s, low s v) :: vs, W) | None => Fatal end
      | None => Fatal
      end
  end.
Lemma eval_call Sc d pl f t o w args W : ev Sc (Srt SRT_CALL_EXPR (Some d) pl [f; Srt t o w args]) W
  = if srttype_beq t SRT_ARG_LIST then
      do _ <- check (match srt_dtype f with Some d => pointer d | None => false end);
      do (vs, W) <- evs Sc args W; do (a, W) <- ev Sc f W; do (x, W) <- call a vs W; do v <- convert d x; Ok (v, W)
    else Fatal.
Proof.
  destruct t; try reflexivity. cbn [eval srttype_beq]. destruct (check _); try reflexivity. cbn [bind].
  match goal with |- bind (?F args W) _ = _ => assert (Eq : forall l W, F l W = evs Sc l W) end.
  { clear. induction l as [| a l IH]; intros W; [reflexivity |]. cbn [evs]. rewrite <- IH. reflexivity. }
  now rewrite Eq.
Qed.
Lemma evs_snoc Sc l a W vs W' : evs Sc (l ++ [a]) W = Ok (vs, W') ->
  exists v W1 vs0 d u s, ev Sc a W = Ok (v, W1) /\ evs Sc l W1 = Ok (vs0, W') /\ srt_dtype a = Some d /\ kind d = Some (u, s) /\ vs = vs0 ++ [(s, low s v)].
Proof.
  revert vs W'. induction l as [| b l IH]; intros vs W' H; cbn [app evs] in H.
  - cbn [bind] in H. apply bind_ok in H as ([v W1] & Ea & H). destruct (srt_dtype a) as [d |] eqn:D; [| discriminate H]. destruct (kind d) as [[u s] |] eqn:K; [| discriminate H].
    injection H as <- <-. exists v, W1, [], d, u, s. now splits.
  - apply bind_ok in H as ([vs1 W1] & E1 & H). apply bind_ok in H as ([v W2] & E2 & H). destruct (IH _ _ E1) as (v0 & W0 & vs0 & d & u & s & Ea & El & D & K & ->).
    destruct (srt_dtype b) as [db |] eqn:Db; [| discriminate H]. destruct (kind db) as [[ub sb] |] eqn:Kb; [| discriminate H]. injection H as <- <-.
    exists v0, W0, ((sb, low sb v) :: vs0), d, u, s. splits; auto. cbn [evs]. rewrite El. cbn [bind]. rewrite E2. cbn [bind]. now rewrite Db, Kb.
Qed.
Lemma evs_length Sc l : forall W vs W', evs Sc l W = Ok (vs, W') -> length vs = length l.
Proof.
  induction l as [| a l IH]; intros W vs W' H; cbn [evs] in H; [injection H as <- <-; reflexivity |].
  apply bind_ok in H as ([vs1 W1] & E1 & H). apply bind_ok in H as ([v W2] & E2 & H). destruct (srt_dtype a) as [db |]; [| discriminate H]. destruct (kind db) as [[ub sb] |]; [| discriminate H].
  injection H as <- <-. cbn. f_equal. eauto.
Qed.

Lemma args_ok ar : kids ar = true -> forall n st cs st' Sc W vs W' q p slots rest,
  (n <= length (srt_children ar))%nat -> gen_args gen ar n st = Ok (cs, st') -> env Sc st -> evs Sc (firstn n (srt_children ar)) W = Ok (vs, W') -> at_ p cs -> i_world q = W ->
  i_args q = slots :: rest ->
  exists q' slots', go p q (p + length cs)%nat q' /\ i_world q' = W' /\ i_ret q' = i_ret q /\ (forall k, k <= g_next st -> i_regs q' k = i_regs q k) /\ stable st st'
    /\ i_args q' = slots' :: rest /\ (forall j, (j < n)%nat -> slots' (Z.of_nat j) = nth_error vs j) /\ (forall j, Z.of_nat n <= j -> slots' j = slots j).
Proof.
  intros Kd. induction n as [| n IH]; intros st cs st' Sc W vs W' q p slots rest Ln H En Ev A Wq Ag; cbn [gen_args] in H.
  - injection H as <- <-. cbn in Ev. injection Ev as <- <-. exists q, slots. splits; auto; [cbn; rewrite Nat.add_0_r; apply go_refl | apply stable_refl | intros j Hj; inversion Hj].
  - apply bind_ok in H as ([[c src] st1] & M1 & H). apply bind_ok in H as ([cs1 st2] & M2 & H). injection H as <- <-.
    destruct (nth_error (srt_children ar) n) as [a |] eqn:Na; [| apply nth_error_None in Na; lia].
    assert (F : firstn (S n) (srt_children ar) = firstn n (srt_children ar) ++ [a]).
    { clear -Na. revert n Na. generalize (srt_children ar). intros l. induction l as [| b l IHl]; intros [| n] Na; try discriminate Na; cbn in *; [injection Na as <-; reflexivity |]. now rewrite (IHl _ Na). }
    rewrite F in Ev. apply evs_snoc in Ev as (v & W1 & vs0 & d & u & s & Ea & El & D & K & ->).
    assert (Gn : gchild ar n = Ok a) by (unfold gchild; now rewrite Na).
    assert (A1 := proj1 (code_at_app _ _ _ _ A)). apply code_at_app in A as [_ A]. change ([inst2 IMMC_INST_STARG (new_signed_arg_immcope (ope_suffix src) (Z.of_nat n)) src] ++ cs1) with (inst2 IMMC_INST_STARG (new_signed_arg_immcope (ope_suffix src) (Z.of_nat n)) src :: cs1) in A.
    destruct (child_int _ _ _ _ _ _ _ _ _ _ _ _ _ _ _ _ M1 Gn (kid _ _ _ Kd Gn) En Ea D K A1 Wq) as (q1 & (G1 & Wq1 & K1) & H1 & S1 & _).
    destruct (has_facts _ _ _ _ _ _ H1) as (u1 & s1 & x & Kx & Sx & _ & Vx & Lx). rewrite K in Kx. injection Kx as <- <-.
    destruct K1 as (Ka & Kr & K1).
    set (q2 := set_args (upd slots (Z.of_nat n) (Some (s, low s v)) :: rest) q1).
    assert (St : step (inst2 IMMC_INST_STARG (new_signed_arg_immcope (ope_suffix src) (Z.of_nat n)) src) q1 = INext q2).
    { cbn [inst2 istep new_signed_arg_immcope]. rewrite Sx, Vx, Ka, Ag. cbn [reg_id]. now rewrite Lx. }
    assert (A2 := at_cons _ NL _ _ _ A).
    assert (N1 := st_next _ _ S1).
    edestruct (IH st1 cs1 st2 Sc W1 vs0 W' q2) as (q3 & slots' & G3 & W3 & R3 & K3 & S3 & Ag3 & In3 & Out3); [lia | exact M2 | exact (env_stable _ _ _ En S1) | exact El | exact A2 | exact Wq1 | reflexivity |].
    assert (Lv := evs_length _ _ _ _ _ El). rewrite firstn_length_le in Lv by lia.
    exists q3, slots'. splits; auto.
    + eapply go_trans; [exact G1 |]. eapply go_trans; [eapply go_next; [exact NL | exact A | exact St] |]. eapply go_to; [exact G3 |]. rewrite !app_length. cbn [length]. lia.
    + rewrite R3. exact Kr.
    + intros k Lk. rewrite K3 by lia. apply K1, Lk.
    + eapply stable_trans; eassumption.
    + intros j Lj. destruct (Nat.eq_dec j n) as [-> | Nj].
      * rewrite Out3 by lia. unfold upd. rewrite Z.eqb_refl, nth_error_app2 by lia. now rewrite Lv, Nat.sub_diag.
      * rewrite In3 by lia. now rewrite nth_error_app1 by lia.
    + intros j Lj. rewrite Out3 by lia. unfold upd. replace (j =? Z.of_nat n) with false by lia. reflexivity.
Qed.
Lemma call_ok e st cs st' Sc W v W' q p :
  srt_type e = SRT_CALL_EXPR ->
  gen_call_expr gen e st = Ok (cs, st') -> regular e = true -> env Sc st -> ev Sc e W = Ok (v, W') -> at_ p cs -> i_world q = W ->
  concl e st st' p cs q W' v.
Proof.
  intros T H R En E A Wq. destruct e as [et od pl ch]. cbn [srt_type] in T. subst et.
  assert (exists d f ao aw args vs W1 a W2 x, od = Some d /\ ch = [f; Srt SRT_ARG_LIST ao aw args] /\ match srt_dtype f with Some d => pointer d | None => false end = true
    /\ evs Sc args W = Ok (vs, W1) /\ ev Sc f W1 = Ok (a, W2) /\ call a vs W2 = Ok (x, W') /\ convert d x = Ok v)
    as (d & f & ao & aw & args & vs & W1 & a & W2 & x & -> & -> & Pf & Ea & Ef & Cl & Cv).
  { destruct od as [d |]; [| discriminate E]. destruct ch as [| f [| [t ao aw args] [| ? ?]]]; [discriminate E | discriminate E | | destruct t; discriminate E]. rewrite eval_call in E.
    destruct (srttype_beq t SRT_ARG_LIST) eqn:Tt; [| discriminate E]. destruct t; try discriminate Tt. einv E. injection E as <- <-.
    eexists d, f, ao, aw, args, _, _, _, _, _. splits; try reflexivity; eassumption. }
  set (ar := Srt SRT_ARG_LIST ao aw args) in *. set (e := Srt SRT_CALL_EXPR (Some d) pl [f; ar]) in *.
  assert (Gf : gchild e 0 = Ok f) by reflexivity. assert (Gr : gchild e 1 = Ok ar) by reflexivity.
  assert (Kd := regular_kids _ R). assert (Kr := regular_kids _ (kid _ _ _ Kd Gr)).
  assert (Lc : computed_last f = true) by (apply regular_regular_node in R; exact R).
  unfold gen_call_expr in H. rewrite Gr in H. cbn [bind] in H. cbv zeta in H. cbn [ar srt_children] in H. fold ar in H.
  set (num := new_signed_int_immcope IMMC_SUFFIX_NONE IInt (Z.of_nat (length args))) in *.
  apply bind_ok in H as ([c1 st1] & M1 & H). apply bind_ok in H as ([[c2 o] st2] & M2 & H). unfold dty, deref in H. cbn [e srt_dtype bind] in H. fold e in H.
  apply bind_ok in H as ([dst st3] & M3 & H). apply bind_ok in H as (st4 & M4 & H). injection H as <- <-.
  assert (A0 := A). apply (at_cons _ NL) in A. assert (A1 := proj1 (code_at_app _ _ _ _ A)). apply code_at_app in A as [_ A]. assert (A2 := proj1 (code_at_app _ _ _ _ A)). apply code_at_app in A as [_ A3].
  assert (A4 := at_cons _ NL _ _ _ A3).
  set (q0 := set_args ((fun _ => None) :: i_args q) q).
  assert (St0 : step (IMMC_INST IMMC_INST_PREP None (Some num) None) q = INext q0) by reflexivity.
  edestruct (args_ok ar Kr (length args) st c1 st1 Sc W vs W1 q0 (S p)) as (q1 & slots & G1 & Wq1 & R1 & K1 & S1 & Ag1 & In1 & _); [reflexivity | exact M1 | exact En | cbn [ar srt_children]; rewrite firstn_all; exact Ea | exact A1 | exact Wq | reflexivity |].
  destruct (srt_dtype f) as [df |] eqn:Df; [| discriminate Pf].
  destruct (child_ptr _ _ _ _ _ _ _ _ _ _ _ _ _ _ M2 Gf (kid _ _ _ Kd Gf) Lc (env_stable _ _ _ En S1) Ef Df Pf A2 Wq1) as (q2 & (G2 & Wq2 & K2) & Mm & S2 & Ad).
  specialize (Ad _ (keep_refl _ _)). destruct K2 as (Ag2 & R2 & K2). rewrite Ag1 in Ag2.
  assert (Lv := evs_length _ _ _ _ _ Ea).
  assert (Cs : collect_args slots (Z.to_nat (lit_value (new_signed IInt (Z.of_nat (length args))))) 0 = Some vs).
  { change (lit_value (new_signed IInt (Z.of_nat (length args)))) with (Z.of_nat (length args)). rewrite Nat2Z.id, <- Lv. apply collect_nth. intros i Li. rewrite Lv in Li. apply In1, Li. }
  assert (N1 := st_next _ _ S1). assert (N2 := st_next _ _ S2).
  set (q3 := set_world W' q2).
  set (Q := fun q4 => INext q4 = match dst with None => INext q3 | Some r => put_result r x q3 end).
  assert (St3 : step (IMMC_INST IMMC_INST_CALL dst (Some o) (Some num)) q2 = match dst with None => INext q3 | Some r => put_result r x q3 end).
  { cbn [istep num new_signed_int_immcope]. rewrite Ad, Ag2. unfold num in *. rewrite Cs, Wq2, Cl. destruct dst; reflexivity. }
  match goal with |- concl _ _ _ _ ?c _ _ _ => set (cs := c) in * end.
  assert (Fin : forall q4, step (IMMC_INST IMMC_INST_CALL dst (Some o) (Some num)) q2 = INext q4 -> i_args q4 = i_args q2 -> i_ret q4 = i_ret q2 -> i_world q4 = W' ->
     (forall k, k <= g_next st -> i_regs q4 k = i_regs q2 k) -> runs_to p cs q (set_args (i_args q) q4) (g_next st) W').
  { intros q4 S4 Ag4 R4 Wq4 K4. split; [| split; [exact Wq4 |]].
    - eapply go_trans; [eapply go_next; [exact NL | exact A0 | exact St0] |]. eapply go_trans; [exact G1 |]. eapply go_trans; [exact G2 |].
      eapply go_trans; [eapply go_next; [exact NL | exact A3 | exact S4] |]. eapply go_to; [eapply (go_next _ _ _ _ _ NL); [exact A4 |] |].
      + cbn [istep num new_signed_int_immcope]. rewrite Ag4, Ag2. reflexivity.
      + subst cs. cbn [length]. rewrite !app_length. cbn [length]. clear; lia.
    - split; [reflexivity |]. split; [cbn; now rewrite R4, R2, R1 |]. intros k Lk. cbn [i_regs set_args]. rewrite K4, K2, K1 by (clear -Lk N1; lia). reflexivity. }
  destruct (is_void d) eqn:Vd.
  - injection M3 as <- <-. exists (set_args (i_args q) q3). split.
    + eapply Fin; [exact St3 | reflexivity | reflexivity | reflexivity | reflexivity].
    + intros d' u' s' D' K'. injection D' as <-. destruct d; try discriminate Vd; discriminate K'.
  - apply bind_ok in M3 as ([r st5] & M5 & M3). injection M3 as <- <-.
    destruct (dest_facts e d _ _ _ _ eq_refl M5 M4) as (Ed & N3 & N4 & Sf & Rg).
    destruct (kind d) as [[u s] |] eqn:K; [| exfalso; destruct d; try discriminate Vd; try discriminate K; discriminate Cv].
    rewrite Ed in St3 at 2. cbn [put_result] in St3. rewrite (suffix_kind _ _ _ K) in St3. cbn [reg_id] in St3.
    exists (set_args (i_args q) (set_reg (g_next st2 + 1) s (low s x) q3)). split.
    + eapply Fin; [exact St3 | reflexivity | reflexivity | reflexivity |]. intros k Lk. cbn [i_regs set_reg q3 set_world]. unfold upd. replace (k =? g_next st2 + 1) with false by (clear -Lk N1 N2; lia). reflexivity.
    + intros d' u' s' D' K'. injection D' as <-. rewrite K in K'. injection K' as <- <-. exists (mkireg (g_next st2 + 1) (uns d)). split; [exact Rg |]. split; [cbn [reg_id]; clear -N1 N2 N3 N4; lia |]. split.
      * exists u, s. split; [exact K |]. split; [rewrite Sf; exact (suffix_kind _ _ _ K) |]. split; [reflexivity |]. cbn [reg_id i_regs set_args set_reg]. unfold upd. rewrite Z.eqb_refl. now rewrite (proj1 (convert_low _ _ _ _ _ K Cv)).
      * intros _. cbn [reg_id]. now rewrite N4.
Qed.
Lemma body_ok e st cs st' Sc W v W' q p :
  gen_body gen None e st = Ok (cs, st') -> regular e = true -> env Sc st -> ev Sc e W = Ok (v, W') -> at_ p cs -> i_world q = W ->
  concl e st st' p cs q W' v.
Proof.
  intros H R En E A Wq. assert (Ie := regular_is_expr _ R). unfold gen_body in H.
  destruct (srt_type e) eqn:T; try discriminate Ie; try discriminate H.
  all: try (eapply (assignment_ok call P params C NL PP gen G X); eassumption).
  all: try (eapply (conditional_ok call P params C NL PP gen G X); eassumption).
  all: try (eapply (logical_ok call P params C NL PP gen G X true); eassumption).
  all: try (eapply (logical_ok call P params C NL PP gen G X false); eassumption).
  all: try (eapply (binary_ok call P params C NL PP gen G X); [rewrite T; reflexivity | reflexivity | eassumption ..]).
  all: try (eapply (comparison_ok call P params C NL PP gen G X); [rewrite T; reflexivity | eassumption ..]).
  all: try (eapply (shift_ok call P params C NL PP gen G X); [rewrite T; reflexivity | eassumption ..]).
  all: try (eapply (pointer_additive_ok call P params C NL PP gen G X); [rewrite T; auto | eassumption ..]).
  all: try (eapply (pointer_diff_ok call P params C NL PP gen G X); eassumption).
  all: try (eapply (incdec_ok call P params C NL PP gen G X); [rewrite T; exact I | eassumption ..]).
  all: try (eapply (address_ok call P params C NL PP gen G X); eassumption).
  all: try (eapply (indirection_ok call P params C NL PP gen G X); eassumption).
  all: try (eapply (positive_ok call P params C NL PP gen G X); eassumption).
  all: try (eapply (neg_not_ok call P params C NL PP gen G X); [rewrite T; reflexivity | eassumption ..]).
  all: try (eapply (logical_not_ok call P params C NL PP gen G X); eassumption).
  all: try (eapply (call_ok); eassumption).
  all: try (eapply (tomember_ok call P params C NL PP gen G X); eassumption).
  all: try (eapply (primary_ok call P params C NL gen G); [rewrite T; auto | eassumption ..]).
  all: try (destruct e as [t od pl ch]; cbn in T; subst t; cbn [eval] in E; destruct od; discriminate E).
Qed.
End Sim.
Theorem gen_simulated call P params C : NoDup (labels C) -> places_ok P -> forall f, simulated call P params C (gen f).
Proof.
  intros NL PP. induction f as [| f IH].
  - intros e st cs st' Sc W v W' q p H. discriminate H.
  - intros e st cs st' Sc W v W' q p H. cbn [gen] in H. eapply (body_ok call P params C NL PP (gen f)); [| exact IH | exact H].
    intros od s st0 cs0 st0' R0 H0. eapply gen_stable; eassumption.
Qed.
(** in the terms of the semantics alone *)
Lemma code_computes_regular call P params C fuel e st cs st' pre post Sc q v W' :
  NoDup (labels C) ->
  (forall n a, p_label P n = Some a -> 0 <= a < 2 ^ 64) -> (forall i, p_string P i = p_label P (create_sliteral_label i)) ->
  gen fuel None e st = Ok (cs, st') -> regular e = true -> C = pre ++ cs ++ post ->
  s_syms Sc = g_syms st -> s_tags Sc = g_tags st ->
  eval call P Sc e (i_world q) = Ok (v, W') ->
  exists q', reaches call (p_label P) (p_frame P) params C (length pre) q (length pre + length cs) q'
    /\ i_world q' = W' /\ i_args q' = i_args q /\ i_ret q' = i_ret q /\ (forall k, k <= g_next st -> i_regs q' k = i_regs q k)
    /\ forall d u s, srt_dtype e = Some d -> kind d = Some (u, s) ->
         exists r, g_reg st' = Some r /\ g_next st < reg_id r <= g_next st' /\ suffix_size (g_suffix st') = Some s /\ i_regs q' (reg_id r) = Some (s, low s v).
Proof.
  intros NL P1 P2 H R EC E1 E2 E.
  destruct (gen_simulated call P params C NL (conj P1 P2) fuel e st cs st' Sc (i_world q) v W' q (length pre) H R (conj E1 E2) E ltac:(now exists pre, post) eq_refl)
    as (q' & (G & Ww & Ka & Kr & K) & V).
  exists q'. splits; auto. intros d u s D Kd. destruct (V d u s D Kd) as (r & Gr & Br & (u' & s' & Kd' & Sf & _ & Rv) & _).
  rewrite Kd in Kd'. injection Kd' as <- <-. exists r. now splits.
Qed.
