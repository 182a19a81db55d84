(** The code of an expression computes its value: branches *)
From Verif Require Import Base SrtModel ImmcModel ImmcgenModel X64Isa X64Decode OpSpec TypeSpec TypeProofs CSem ImmcSem GenSpec ElabProofs GenProofs IsaProofs LabelSpec ExprProofs ExprProofs2 ExprProofs3 ExprProofs4 ExprProofs5 ExprProofs6.
Open Scope Z_scope.

Ltac einv H :=
  repeat match type of H with
  | bind (check ?b) _ = Ok _ =>
      let Z := fresh "Z" in destruct b eqn:Z; cbn [check bind] in H; [| discriminate H]
  | bind _ _ = Ok _ => let x := fresh "x" in let M := fresh "V" in apply bind_ok in H as (x & M & H); cbv beta in H
  | (let 'pair _ _ := ?x in _) = _ => is_var x; destruct x
  end; cbv beta iota in H.

Definition label_id (n : Z) : name := match new_label_immcope_from_id n with IMMC_OPERAND_LABEL m => m | _ => [] end.
Section Sim.
Variables (call : caller) (P : places) (params : list (size * Z)) (C : list immc).
Hypothesis NL : NoDup (labels C).
Hypothesis PP : places_ok P.
Notation go := (reaches call (p_label P) (p_frame P) params C).
Notation step := (istep call (p_label P) (p_frame P) params).
Notation at_ := (code_at C).
Notation ev := (eval call P).
Notation addr := (iaddress (p_label P) (p_frame P)).
Notation runs_to := (runs_to call P params C).
Notation concl := (concl call P params C).
Notation range := (eval_range call P PP).
Variable gen : option dtype -> srt -> gst -> gres.
Hypothesis G : forall od s st cs st', regular s = true -> gen od s st = Ok (cs, st') -> stable st st'.
Hypothesis X : simulated call P params C gen.
Notation child_int := (child_int_ok call P params C NL PP gen G X).
Notation child_reg := (child_reg_ok call P params C NL PP gen G X).
Notation child_ptr := (child_ptr_ok call P params C PP gen G X).
Notation jmp_cond := (jmp_cond_ok call P params C NL PP gen G X).

Notation finish := (finish call P params C NL gen G).
Notation operands := (operands call P params C NL PP gen G X).

(** ** Branches *)
Lemma cond_jump s i c jt l st cs st' Sc W v W' q p d u z :
  append_jmp gen s i jt l st = Ok (cs, st') -> gchild s i = Ok c -> regular c = true -> env Sc st ->
  ev Sc c W = Ok (v, W') -> srt_dtype c = Some d -> kind d = Some (u, z) -> at_ p cs -> i_world q = W ->
  exists q', stable st st' /\ keep (g_next st) q q' /\ i_world q' = W'
    /\ (if Bool.eqb (negb (v =? 0)) jt then forall k, label_at (label_id l) C = Some k -> go p q k q' else go p q (p + length cs)%nat q').
Proof.
  unfold append_jmp. intros H Hc R En E D K A Wq. apply bind_ok in H as ([[c1 j] st1] & M & H). injection H as <- <-.
  apply code_at_app in A as [A1 A2].
  destruct (jmp_cond _ _ _ _ _ _ _ _ _ _ _ _ _ _ _ _ _ M Hc R En E D K A1 Wq) as (q1 & (G1 & W1 & K1) & S1 & J).
  exists q1. split; [exact S1 |]. split; [exact K1 |]. split; [exact W1 |]. specialize (J (label_id l)). change (IMMC_OPERAND_LABEL (label_id l)) with (new_label_immcope_from_id l) in J.
  destruct (Bool.eqb _ _).
  - intros k Lk. eapply go_trans; [exact G1 |]. eapply go_jump; [exact NL | exact A2 | exact J | exact Lk].
  - rewrite app_length, Nat.add_assoc. cbn [length]. rewrite Nat.add_1_r. eapply go_trans; [exact G1 |]. eapply go_next; [exact NL | exact A2 | exact J].
Qed.
Lemma scalar_kind o : scalar_type o = true -> exists d u s, o = Some d /\ kind d = Some (u, s).
Proof. destruct o as [d |]; cbn; [| discriminate]. destruct (kind d) as [[u s] |] eqn:K; [| discriminate]. intros _. now exists d, u, s. Qed.
Lemma has_load n n' q d v o dst : has n n' q d v o -> exists u s a, kind d = Some (u, s) /\ step (inst2 IMMC_INST_LOAD dst o) q = put_result dst a q /\ low s a = low s v.
Proof.
  intros H. destruct (has_facts _ _ _ _ _ _ H) as (u & s & a & K & _ & _ & V & L). exists u, s, a. splits; auto. cbn [inst2 istep].
  destruct o; try contradiction; cbn [is_memory]; now rewrite V.
Qed.
Lemma go_label_id p n cs q : at_ p (normal_label n :: cs) -> go p q (S p) q.
Proof. intros A. eapply go_label; [exact NL | exact A]. Qed.
Lemma label_id_at p n cs : at_ p (normal_label n :: cs) -> label_at (label_id n) C = Some p.
Proof. intros A. eapply label_here; [exact NL | exact A]. Qed.
Lemma go_jmp_to p n cs q k : at_ p (jmp_to n :: cs) -> label_at (label_id n) C = Some k -> go p q k q.
Proof. intros A L. eapply go_jump; [exact NL | exact A | reflexivity | exact L]. Qed.
Lemma at_cons p c cs : at_ p (c :: cs) -> at_ (S p) cs.
Proof. intros A. apply code_at_cons in A as [_ A]; [exact A | exact NL]. Qed.

Lemma conditional_ok e st cs st' Sc W v W' q p :
  srt_type e = SRT_COND_EXPR ->
  gen_conditional_expr gen e st = Ok (cs, st') -> regular e = true -> env Sc st -> ev Sc e W = Ok (v, W') -> at_ p cs -> i_world q = W ->
  concl e st st' p cs q W' v.
Proof.
  intros T H R En E A Wq. destruct e as [et od pl ch]. cbn [srt_type] in T. subst et.
  assert (exists d c a b x W1, od = Some d /\ ch = [c; a; b] /\ alike (Some d) (srt_dtype a) = true /\ alike (Some d) (srt_dtype b) = true /\ scalar_type (srt_dtype c) = true
    /\ ev Sc c W = Ok (x, W1) /\ (if x =? 0 then ev Sc b W1 else ev Sc a W1) = Ok (v, W'))
    as (d & c & a & b & x & W1 & -> & -> & Aa & Ab & Sk & Ec & Ev).
  { cbn [eval] in E. destruct od as [d |]; [| discriminate E]; destruct ch as [| c [| a [| b [| ? ?]]]]; try discriminate E. einv E.
    apply andb_prop in Z as [Z Zc]. apply andb_prop in Z as [Za Zb].
    eexists d, c, a, b, _, _; splits; try reflexivity; eassumption. }
  destruct (alike_kind _ _ Aa) as (da & u & s & Da & K & Ka & _). destruct (alike_kind _ _ Ab) as (db & u' & s' & Db & K' & Kb & _). rewrite K in K'. injection K' as <- <-.
  destruct (scalar_kind _ Sk) as (dc & uc & sc & Dc & Kc).
  unfold gen_conditional_expr, next_label in H. set (lf := g_label st + 1) in *. set (st0 := gset_label (g_label (gset_label lf st) + 1) (gset_label lf st)) in *. cbn [gset_label g_label] in H.
  set (le := lf + 1) in *.
  apply bind_ok in H as ([c1 st1] & M1 & H). apply bind_ok in H as ([dst st2] & M2 & H). apply bind_ok in H as ([[c2 o1] st3] & M3 & H).
  apply bind_ok in H as ([[c3 o2] st4] & M4 & H). apply bind_ok in H as (st5 & M5 & H). injection H as <- <-.
  assert (S0 : stable st st0) by (split; try reflexivity; subst st0; cbn; lia).
  assert (Kd := regular_kids _ R).
  assert (Gc : gchild (Srt SRT_COND_EXPR (Some d) pl [c; a; b]) 0 = Ok c) by reflexivity.
  assert (Ga : gchild (Srt SRT_COND_EXPR (Some d) pl [c; a; b]) 1 = Ok a) by reflexivity.
  assert (Gb : gchild (Srt SRT_COND_EXPR (Some d) pl [c; a; b]) 2 = Ok b) by reflexivity.
  assert (A1 := proj1 (code_at_app _ _ _ _ A)). apply code_at_app in A as [_ A]. assert (A2 := proj1 (code_at_app _ _ _ _ A)). apply code_at_app in A as [_ A].
  assert (B1 := A). assert (B2 := at_cons _ _ _ B1). assert (B3 := at_cons _ _ _ B2). assert (B4 := at_cons _ _ _ B3).
  assert (A3 := proj1 (code_at_app _ _ _ _ B4)). apply code_at_app in B4 as [_ B4]. assert (B5 := at_cons _ _ _ B4).
  assert (Lf := label_id_at _ _ _ B3). assert (Le := label_id_at _ _ _ B5).
  destruct (cond_jump _ _ _ _ _ _ _ _ _ _ _ _ q p _ _ _ M1 Gc (kid _ _ _ Kd Gc) (env_stable _ _ _ En S0) Ec Dc Kc A1 Wq) as (q1 & S1 & K1 & Wq1 & J).
  assert (S2 := dest_stable _ _ _ _ M2).
  assert (S3 := stable_reg_ gen G _ _ _ _ _ _ Kd M3).
  assert (S4 := stable_reg_ gen G _ _ _ _ _ _ Kd M4).
  assert (S5 := update_stable _ _ _ M5).
  assert (Sx : stable st st2) by (eapply stable_trans; [exact S0 | eapply stable_trans; eassumption]).
  assert (Sy : stable st st3) by (eapply stable_trans; eassumption).
  assert (N0 := st_next _ _ S0). assert (N1 := st_next _ _ S1). assert (N3 := st_next _ _ S3). assert (N4 := st_next _ _ S4).
  assert (D5 : dst = IMMC_OPERAND_REG (immcsuffix_get (dtype_nbytes d)) (mkireg (g_next st1 + 1) (uns d)) /\ g_next st2 = g_next st1 + 1
     /\ g_suffix st5 = immcsuffix_get (dtype_nbytes d) /\ g_reg st5 = Some (mkireg (g_next st1 + 1) (uns d)) /\ g_next st5 = g_next st4).
  { unfold create_dest_reg, dty, deref in M2. cbn in M2. injection M2 as <- <-. cbn in M5. injection M5 as <-. now splits. }
  destruct D5 as (Ed & N2 & Sf & Rg & N5).
  assert (Fin : forall k q2 x, keep (g_next st) q q2 -> i_world q2 = W' -> low s x = low s v ->
     go p q k (set_reg (g_next st1 + 1) s (low s x) q2) ->
     k = (p + length (c1 ++ c2 ++ inst2 IMMC_INST_LOAD dst o1 :: jmp_to le :: normal_label lf :: c3 ++ [inst2 IMMC_INST_LOAD dst o2; normal_label le]))%nat ->
     concl (Srt SRT_COND_EXPR (Some d) pl [c; a; b]) st st5 p (c1 ++ c2 ++ inst2 IMMC_INST_LOAD dst o1 :: jmp_to le :: normal_label lf :: c3 ++ [inst2 IMMC_INST_LOAD dst o2; normal_label le]) q W' v).
  { intros k q2 y Kq Wq2 Ly Gk ->. exists (set_reg (g_next st1 + 1) s (low s y) q2). split.
    - split; [exact Gk | split; [exact Wq2 |]]. eapply (keep_trans _ (g_next st)); [exact Kq | apply keep_set_reg; clear -N0 N1; lia | reflexivity].
    - intros d' u' s' D' K'. injection D' as <-. rewrite K in K'. injection K' as <- <-. exists (mkireg (g_next st1 + 1) (uns d)). split; [exact Rg |]. split; [cbn [reg_id]; clear -N0 N1 N2 N3 N4 N5; lia |]. split.
      + exists u, s. split; [exact K |]. split; [rewrite Sf; exact (suffix_kind _ _ _ K) |]. split; [reflexivity |]. cbn [reg_id]. now rewrite set_reg_get, Ly.
      + discriminate. }
  assert (Put : forall y q2, put_result dst y q2 = INext (set_reg (g_next st1 + 1) s (low s y) q2)).
  { intros y q2. rewrite Ed. cbn [put_result]. rewrite (suffix_kind _ _ _ K). reflexivity. }
  destruct (x =? 0) eqn:Zx; cbn [Bool.eqb negb] in J.
  - specialize (J _ Lf).
    destruct (child_reg _ _ _ _ _ _ _ _ _ _ _ _ _ _ _ _ M4 Gb (kid _ _ _ Kd Gb) (env_stable _ _ _ En Sy) Ev Db Kb A3 Wq1) as (q2 & sf & rr & _ & (G2 & Wq2 & K2) & H2 & _ & _).
    destruct (has_load _ _ _ _ _ _ dst H2) as (u' & s' & y & K' & L2 & Ly). rewrite Kb in K'. injection K' as <- <-. rewrite Put in L2.
    eapply (Fin _ q2 y); [| exact Wq2 | exact Ly | |].
    + eapply keep_trans; [eapply keep_le; [exact K1 | exact N0] | exact K2 |]. exact (st_next _ _ Sy).
    + eapply go_trans; [exact J |]. eapply go_trans; [eapply go_label_id, B3 |]. eapply go_trans; [exact G2 |]. eapply go_trans; [eapply go_next; [exact NL | exact B4 | exact L2] |].
      eapply go_label_id, B5.
    + rewrite !app_length. cbn [length]. rewrite !app_length. cbn [length]. clear; lia.
  - destruct (child_reg _ _ _ _ _ _ _ _ _ _ _ _ _ _ _ _ M3 Ga (kid _ _ _ Kd Ga) (env_stable _ _ _ En Sx) Ev Da Ka A2 Wq1) as (q2 & sf & rr & _ & (G2 & Wq2 & K2) & H2 & _ & _).
    destruct (has_load _ _ _ _ _ _ dst H2) as (u' & s' & y & K' & L2 & Ly). rewrite Ka in K'. injection K' as <- <-. rewrite Put in L2.
    eapply (Fin _ q2 y); [| exact Wq2 | exact Ly | |].
    + eapply keep_trans; [eapply keep_le; [exact K1 | exact N0] | exact K2 |]. exact (st_next _ _ Sx).
    + eapply go_trans; [exact J |]. eapply go_trans; [exact G2 |]. eapply go_trans; [eapply go_next; [exact NL | exact B1 | exact L2] |].
      eapply go_trans; [eapply go_jmp_to; [exact B2 | exact Le] |]. eapply go_label_id, B5.
    + rewrite !app_length. cbn [length]. rewrite !app_length. cbn [length]. clear; lia.
Qed.


Lemma logical_ok or e st cs st' Sc W v W' q p :
  srt_type e = (if or : bool then SRT_LOR_EXPR else SRT_LAND_EXPR) ->
  gen_logical_expr gen or e st = Ok (cs, st') -> regular e = true -> env Sc st -> ev Sc e W = Ok (v, W') -> at_ p cs -> i_world q = W ->
  concl e st st' p cs q W' v.
Proof.
  intros T H R En E A Wq. destruct e as [et od pl ch]. cbn [srt_type] in T.
  assert (exists a b x W1, od = Some DTYPE_INT /\ ch = [a; b] /\ scalar_type (srt_dtype a) = true /\ scalar_type (srt_dtype b) = true
    /\ ev Sc a W = Ok (x, W1) /\ (if Bool.eqb (negb (x =? 0)) or then v = (if or then 1 else 0) /\ W' = W1 else exists y, ev Sc b W1 = Ok (y, W') /\ v = truth (negb (y =? 0))))
    as (a & b & x & W1 & -> & -> & Aa & Ab & Ea & Ev).
  { destruct or; subst et; cbn [eval] in E; (destruct od as [d |]; [| discriminate E]; destruct d; try discriminate E; destruct ch as [| a [| b [| ? ?]]]; try discriminate E; einv E;
    apply andb_prop in Z as [Za Zb]; eexists a, b, _, _; splits; try reflexivity; try eassumption;
    match goal with |- context [?z =? 0] => destruct (z =? 0) eqn:Zx end; cbn [negb Bool.eqb]; einv E; injection E as <- <-; eauto). }
  destruct (scalar_kind _ Aa) as (da & ua & sa & Da & Ka). destruct (scalar_kind _ Ab) as (db & ub & sb & Db & Kb).
  unfold gen_logical_expr, next_label in H. set (l1 := g_label st + 1) in *. set (st0 := gset_label (g_label (gset_label l1 st) + 1) (gset_label l1 st)) in *. cbn [gset_label g_label] in H.
  set (le := l1 + 1) in *.
  apply bind_ok in H as ([c1 st1] & M1 & H). apply bind_ok in H as ([c2 st2] & M2 & H). apply bind_ok in H as ([dst st3] & M3 & H). cbv zeta in H.
  apply bind_ok in H as (st4 & M4 & H). injection H as <- <-.
  set (e := Srt et (Some DTYPE_INT) pl [a; b]) in *.
  assert (S0 : stable st st0) by (split; try reflexivity; subst st0; cbn; lia).
  assert (Kd := regular_kids _ R).
  assert (Ga : gchild e 0 = Ok a) by reflexivity. assert (Gb : gchild e 1 = Ok b) by reflexivity.
  assert (A1 := proj1 (code_at_app _ _ _ _ A)). apply code_at_app in A as [_ A]. assert (A2 := proj1 (code_at_app _ _ _ _ A)). apply code_at_app in A as [_ A].
  assert (B1 := A). assert (B2 := at_cons _ _ _ B1). assert (B3 := at_cons _ _ _ B2). assert (B4 := at_cons _ _ _ B3). assert (B5 := at_cons _ _ _ B4).
  assert (Lf := label_id_at _ _ _ B3). assert (Le := label_id_at _ _ _ B5).
  destruct (cond_jump _ _ _ _ _ _ _ _ _ _ _ _ q p _ _ _ M1 Ga (kid _ _ _ Kd Ga) (env_stable _ _ _ En S0) Ea Da Ka A1 Wq) as (q1 & S1 & K1 & Wq1 & J).
  assert (S2 := stable_jmp gen G _ _ _ _ _ _ _ Kd M2).
  assert (Sx : stable st st1) by (eapply stable_trans; [exact S0 | exact S1]).
  assert (N0 := st_next _ _ S0). assert (N1 := st_next _ _ S1). assert (N2 := st_next _ _ S2).
  destruct (dest_facts e DTYPE_INT _ _ _ _ eq_refl M3 M4) as (Ed & N3 & N4 & Sf & Rg).
  match goal with |- concl _ _ _ _ ?c _ _ _ => set (cs := c) end.
  assert (Fin : forall k q2 x, keep (g_next st) q q2 -> i_world q2 = W' -> low S4 x = low S4 v ->
     go p q k (set_reg (g_next st2 + 1) S4 (low S4 x) q2) -> k = (p + length cs)%nat -> concl e st st4 p cs q W' v).
  { intros k q2 y Kq Wq2 Ly Gk ->. exists (set_reg (g_next st2 + 1) S4 (low S4 y) q2). split.
    - split; [exact Gk | split; [exact Wq2 |]]. eapply (keep_trans _ (g_next st)); [exact Kq | apply keep_set_reg; clear -N0 N1 N2; lia | reflexivity].
    - intros d' u' s' D' K'. injection D' as <-. injection K' as <- <-. exists (mkireg (g_next st2 + 1) (uns DTYPE_INT)). split; [exact Rg |]. split; [cbn [reg_id]; clear -N0 N1 N2 N3 N4; lia |]. split.
      + exists false, S4. split; [reflexivity |]. split; [rewrite Sf; reflexivity |]. split; [reflexivity |]. cbn [reg_id]. now rewrite set_reg_get, Ly.
      + intros _. cbn [reg_id]. now rewrite N4. }
  assert (Put : forall y (q2 : istate), step (inst2 IMMC_INST_LOAD dst (new_signed_int_immcope (ope_suffix dst) IInt (if y : bool then 1 else 0))) q2
     = INext (set_reg (g_next st2 + 1) S4 (low S4 (if y then 1 else 0)) q2)).
  { intros y q2. rewrite Ed. destruct y; reflexivity. }
  assert (Yes : forall q2, keep (g_next st) q q2 -> i_world q2 = W' -> v = (if or then 1 else 0) -> go p q (S (S (p + length c1 + length c2))) q2 -> concl e st st4 p cs q W' v).
  { intros q2 Kq Wq2 -> Gk. eapply (Fin _ q2); [exact Kq | exact Wq2 | reflexivity | |].
    - eapply go_trans; [exact Gk |]. eapply go_trans; [eapply go_label_id, B3 |]. eapply go_trans; [eapply go_next; [exact NL | exact B4 | apply Put] |]. eapply go_label_id, B5.
    - subst cs. rewrite !app_length. cbn [length]. clear; lia. }
  destruct (Bool.eqb (negb (x =? 0)) or).
  - destruct Ev as (Ev & ->). specialize (J _ Lf). eapply Yes; [eapply keep_le; [exact K1 | exact N0] | exact Wq1 | exact Ev | exact J].
  - destruct Ev as (y & Eb & Ev).
    destruct (cond_jump _ _ _ _ _ _ _ _ _ _ _ _ q1 (p + length c1)%nat _ _ _ M2 Gb (kid _ _ _ Kd Gb) (env_stable _ _ _ En Sx) Eb Db Kb A2 Wq1) as (q2 & _ & K2 & Wq2 & J2).
    assert (Kq : keep (g_next st) q q2) by (eapply keep_trans; [eapply keep_le; [exact K1 | exact N0] | exact K2 | exact (st_next _ _ Sx)]).
    destruct (Bool.eqb (negb (y =? 0)) or) eqn:Ey.
    + specialize (J2 _ Lf). eapply Yes; [exact Kq | exact Wq2 | | eapply go_trans; [exact J | exact J2]].
      apply Bool.eqb_prop in Ey. rewrite Ev, Ey. destruct or; reflexivity.
    + eapply (Fin _ q2); [exact Kq | exact Wq2 | | |].
      2: { eapply go_trans; [exact J |]. eapply go_trans; [exact J2 |]. eapply go_trans; [eapply go_next; [exact NL | exact B1 | apply (Put (negb or))] |].
           eapply go_trans; [eapply go_jmp_to; [exact B2 | exact Le] |]. eapply go_label_id, B5. }
      * rewrite Ev. destruct (y =? 0), or; try discriminate Ey; reflexivity.
      * subst cs. rewrite !app_length. cbn [length]. clear; lia.
Qed.
End Sim.
