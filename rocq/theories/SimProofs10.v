(** Proofs for C48: the body of a function with calls *)
From Coq Require Import Lia ZifyBool.
From Verif Require Import Base ElabProofs ImmcModel LabelSpec X64Model X64genModel X64Decode OpSpec CSem ImmcSem IsaProofs IsaMemProofs X64genProofs X64genProofs2 X64genProofs5 RegSpec RegProofs2 RegProofs6 OrderProofs CallSpec CallProofs5 CallProofs7 MarkSpec SimSpec SimCallSpec SimProofs SimProofs2 SimProofs3 SimProofs4 SimProofs5 SimProofs9 X64Isa.
Local Open Scope Z_scope.

Section Run.
Variables (place : Z -> Z) (call : caller) (lab : name -> option Z) (frame : Z) (params : list (size * Z)).
Variables (fn : list immc) (v : visibility) (own : name) (sz : option ope) (prm body : list immc) (v' : visibility) (stop : name).
Variables (F pre post : list x64) (ps : list (list x64)) (ev : Z).
Variables (K : nat -> Z -> state -> state -> Prop) (width : Z -> option size) (sp : Z).
Hypothesis Efn : fn = IMMC_LABEL IMMC_LABEL_FUNCTION v own :: IMMC_INST IMMC_INST_ENTER None sz None :: prm ++ body ++ [IMMC_LABEL IMMC_LABEL_NORMAL v' stop; IMMC_INST IMMC_INST_LEAVE None sz None].
Hypothesis Lprm : Forall (fun c => loads_argument c = true) prm.
Hypothesis Lbody : Forall (fun c => loads_argument c = false) body.
Hypothesis Ret : forall b1 c b2, body = b1 ++ c :: b2 -> returns_value c = true -> exists b3, b2 = IMMC_INST IMMC_INST_JMP (Some (IMMC_OPERAND_LABEL stop)) None None :: b3.
Hypothesis Own : forall c, In c body -> goes_to c <> Some own.
Hypothesis Wri : forall c r, In c body -> writes c = Some r -> 0 <= r.
Hypothesis Fits : forall p c, nth_error (prm ++ body) p = Some c -> if call_part c then call_fits (renamed place c) else fits (skipn (3 + p) fn) (List.map (renamed place) (skipn (3 + p) fn)) c (renamed place c).
Hypothesis Ph : phase_after Outside (prm ++ body ++ [IMMC_LABEL IMMC_LABEL_NORMAL v' stop]) = Some Outside.
Hypothesis Or : orderly fn.
Hypothesis ND : NoDup (labels fn).
Hypothesis EF : F = pre ++ concat ps ++ post.
Hypothesis Lps : length ps = length (prm ++ body ++ [IMMC_LABEL IMMC_LABEL_NORMAL v' stop]).
Hypothesis Cuts : forall p c cp, nth_error (prm ++ body ++ [IMMC_LABEL IMMC_LABEL_NORMAL v' stop]) p = Some c -> nth_error ps p = Some cp -> cut place ev fn (2 + p) c cp.
Hypothesis Few : ev <= 1.
Variables (q1 : istate) (m1 : state).
Hypothesis Args : forall k s x a, nth_error params (Z.to_nat k) = Some (s, x) -> 0 <= k -> argument_reg k = Some a -> low s (rget (regs m1) a) = low s x.
Hypothesis Do : calls_do call K width sp (regions (w_mem (i_world q1))) (regions (mem m1)).
Hypothesis Fit : results_fit fn lab width.
Hypothesis Room : argument_room (w_mem (i_world q1)) (mem m1) sp.
Hypothesis Sp : sp < 2 ^ 64.

Definition stack_is (p : phase) (q : istate) (m : state) : Prop :=
  match p with
  | Outside => rget (regs m) RSP = sp /\ i_args q = []
  | Arguments n k => 0 <= k <= n /\ n <= 6 /\ rget (regs m) RSP = sp - 8 * k /\ exists slots, i_args q = [slots]
      /\ forall j, 0 <= j < k -> exists z x w, slots (n - k + j) = Some (z, x) /\ holds (mem m) (sp - 8 * k + 8 * j) 8 w /\ low z w = x
  | Called => rget (regs m) RSP = sp /\ exists slots, i_args q = [slots]
  end.
Definition saved_regs : list reg := [RBP; R12; R13; R14; R15].
Record winv (k : nat) (q : istate) (m : state) : Prop := {
  wi_agree : agree frame q m;
  wi_kept : forall r, In r saved_regs -> rget (regs m) r = rget (regs m1) r;
  wi_bx : rget (regs m) RBX = rget (regs m1) RBX \/ 1 <= ev;
  wi_mem : forall a, sp <= a -> ~ accessible (w_mem (i_world q1)) a 1 -> peek (mem m) a = peek (mem m1) a;
  wi_world : regions (w_mem (i_world q)) = regions (w_mem (i_world q1));
  wi_regions : regions (mem m) = regions (mem m1);
  wi_live : forall r, live fn (2 + k) r -> has place q m r;
  wi_args : (k < length prm)%nat -> forall i a, argument_reg i = Some a -> rget (regs m) a = rget (regs m1) a;
  wi_ret : i_ret q = None \/ (exists s x, i_ret q = Some (s, x) /\ low s (rget (regs m) RAX) = x) /\ ((length (prm ++ body) <= k)%nat \/ nth_error (prm ++ body) k = Some (IMMC_INST IMMC_INST_JMP (Some (IMMC_OPERAND_LABEL stop)) None None));
  wi_range : in_range m;
  wi_phase : exists p, phase_after Outside (firstn k (prm ++ body ++ [IMMC_LABEL IMMC_LABEL_NORMAL v' stop])) = Some p /\ stack_is p q m }.
Definition pos (k : nat) : nat := (length pre + length (concat (firstn k ps)))%nat.
Lemma here k c : nth_error (prm ++ body ++ [IMMC_LABEL IMMC_LABEL_NORMAL v' stop]) k = Some c -> nth_error fn (2 + k) = Some c.
Proof.
  intros H. rewrite Efn. cbn [Nat.add nth_error]. replace (prm ++ body ++ [IMMC_LABEL IMMC_LABEL_NORMAL v' stop; IMMC_INST IMMC_INST_LEAVE None sz None]) with ((prm ++ body ++ [IMMC_LABEL IMMC_LABEL_NORMAL v' stop]) ++ [IMMC_INST IMMC_INST_LEAVE None sz None]) by (rewrite <- !app_assoc; reflexivity).
  rewrite nth_error_app1; [exact H |]. apply nth_error_Some. congruence.
Qed.
Lemma piece_at k cp : nth_error ps k = Some cp -> exists A B, F = A ++ cp ++ B /\ length A = pos k /\ pos (S k) = (pos k + length cp)%nat.
Proof.
  intros H. destruct (concat_cut _ _ _ H) as (B & E). exists (pre ++ concat (firstn k ps)), (B ++ post). split; [rewrite EF, E, <- !app_assoc; reflexivity |]. split; [unfold pos; now rewrite app_length |].
  unfold pos. rewrite (firstn_succ _ _ _ H), concat_app, app_length. cbn. rewrite app_nil_r. lia.
Qed.
Lemma target n p : goes_to (IMMC_INST IMMC_INST_JMP (Some (IMMC_OPERAND_LABEL n)) None None) = Some n -> n <> own -> label_at n fn = Some p -> exists k t w, p = (2 + k)%nat /\ (length prm <= k <= length (prm ++ body))%nat /\ nth_error F (pos k) = Some (X64_LABEL t w n).
Proof.
  intros _ N La. apply label_at_nth in La as (t & w & E). destruct p as [| [| k]]; [rewrite Efn in E; cbn in E; congruence | rewrite Efn in E; cbn in E; congruence |]. exists k.
  assert (E' : nth_error (prm ++ body ++ [IMMC_LABEL IMMC_LABEL_NORMAL v' stop]) k = Some (IMMC_LABEL t w n)).
  { rewrite Efn in E. cbn [nth_error] in E. replace (prm ++ body ++ [IMMC_LABEL IMMC_LABEL_NORMAL v' stop; IMMC_INST IMMC_INST_LEAVE None sz None]) with ((prm ++ body ++ [IMMC_LABEL IMMC_LABEL_NORMAL v' stop]) ++ [IMMC_INST IMMC_INST_LEAVE None sz None]) in E by (rewrite <- !app_assoc; reflexivity).
    destruct (Nat.lt_ge_cases k (length (prm ++ body ++ [IMMC_LABEL IMMC_LABEL_NORMAL v' stop]))) as [L | L]; [now rewrite nth_error_app1 in E |]. rewrite nth_error_app2 in E by exact L. destruct (k - _)%nat as [| [|]]; discriminate E. }
  destruct (nth_error ps k) as [cp |] eqn:Ep; [| apply nth_error_None in Ep; rewrite Lps in Ep; assert (k < length (prm ++ body ++ [IMMC_LABEL IMMC_LABEL_NORMAL v' stop]))%nat by (apply nth_error_Some; congruence); lia].
  destruct (Cuts _ _ _ E' Ep) as (w' & ->). exists X64_LABEL_NORMAL, w'. split; [reflexivity |]. split.
  - assert (k < length (prm ++ body ++ [IMMC_LABEL IMMC_LABEL_NORMAL v' stop]))%nat by (apply nth_error_Some; congruence). split; [| rewrite !app_length in *; cbn in *; lia].
    destruct (Nat.lt_ge_cases k (length prm)) as [L | L]; [| exact L]. rewrite nth_error_app1 in E' by exact L. rewrite Forall_forall in Lprm. assert (X := Lprm _ (nth_error_In _ _ E')). discriminate X.
  - destruct (piece_at _ _ Ep) as (A & B & E1 & E2 & _). rewrite E1, <- E2. cbn [app]. apply nth_mid.
Qed.
Lemma arg_shape k c : nth_error prm k = Some c -> exists off s r, c = IMMC_INST IMMC_INST_LDARG (Some (IMMC_OPERAND_MEM off)) (Some (IMMC_OPERAND_ARG s r)) None /\ argument_reg (reg_id r) <> None.
Proof.
  intros E. assert (Lc : loads_argument c = true) by (rewrite Forall_forall in Lprm; apply Lprm; eapply nth_error_In, E). assert (Fi := Fits k c ltac:(rewrite nth_error_app1 by (apply nth_error_Some; congruence); exact E)).
  destruct c as [t d f g | | |]; try discriminate Lc. destruct t; try discriminate Lc. cbn [renamed call_part] in Fi. destruct d as [[] |], f as [[] |], g as [[] |]; cbn in Fi; try (destruct Fi; fail). eauto.
Qed.
Lemma none_live k r : (k <= length prm)%nat -> ~ live fn (2 + k) r.
Proof.
  intros Lk L. destruct (or_written _ Or _ _ L) as (p & c & Lp & E & W). rewrite Efn in E. destruct p as [| [| p]]; [injection E as <-; discriminate W | injection E as <-; discriminate W |]. cbn [nth_error] in E. rewrite nth_error_app1 in E by lia. destruct (arg_shape _ _ E) as (off & s & rr & -> & _). discriminate W.
Qed.
Lemma inv_start : agree frame q1 m1 -> i_ret q1 = None -> i_args q1 = [] -> in_range m1 -> rget (regs m1) RSP = sp -> winv 0 q1 m1.
Proof. intros A R G N S0. constructor; auto; try lia. - intros r L. destruct (none_live 0 r ltac:(lia) L). - exists Outside. split; [reflexivity | split; assumption]. Qed.
Lemma not_world q a : regions (w_mem (i_world q)) = regions (w_mem (i_world q1)) -> ~ accessible (w_mem (i_world q1)) a 1 -> ~ accessible (w_mem (i_world q)) a 1.
Proof. intros R N A. apply N. eapply accessible_regions; [symmetry; exact R | exact A]. Qed.
Lemma stop_at : label_at stop fn = Some (2 + length (prm ++ body))%nat.
Proof.
  apply (label_is fn ND _ IMMC_LABEL_NORMAL v' stop). apply here. rewrite app_assoc, nth_error_app2, Nat.sub_diag by lia. reflexivity.
Qed.
Notation all := (prm ++ body ++ [IMMC_LABEL IMMC_LABEL_NORMAL v' stop]).
Lemma phase_here k c : nth_error all k = Some c -> exists p p', phase_after Outside (firstn k all) = Some p /\ next_phase p c = Some p' /\ phase_after Outside (firstn (S k) all) = Some p'.
Proof.
  intros E. assert (P := Ph). rewrite <- (firstn_skipn k all), phase_app in P. destruct (phase_after Outside (firstn k all)) as [p |] eqn:Ep; [| discriminate P].
  rewrite (firstn_succ _ _ _ E), phase_app, Ep. assert (Es : skipn k all = c :: skipn (S k) all).
  { clear -E. revert E. generalize all as l. revert k. induction k as [| k IH]; intros [| y l] E; try discriminate E; [injection E as ->; reflexivity |]. cbn [nth_error] in E. apply IH in E. exact E. }
  rewrite Es in P. cbn [phase_after] in P |- *. destruct (next_phase p c) as [p' |] eqn:En; [| discriminate P]. exists p, p'. repeat split; auto.
Qed.
Lemma stack_moved p q m q2 m2 st' : regions (w_mem (i_world q)) = regions (w_mem (i_world q1)) -> stack_is p q m -> moved frame q m q2 m2 st' -> i_args q2 = i_args q -> stack_is p q2 m2.
Proof.
  intros W H [M1 M2 M3 M4 M5 M6] A. assert (R : rget (regs m2) RSP = rget (regs m) RSP) by (apply M2; now left). destruct p as [| n k |]; cbn [stack_is] in *; rewrite R, A; auto.
  destruct H as (H1 & H2 & H3 & slots & H4 & H5). split; [exact H1 |]. split; [exact H2 |]. split; [exact H3 |]. exists slots. split; [exact H4 |]. intros j J. destruct (H5 j J) as (z & x & w & E1 & E2 & E3). exists z, x, w. split; [exact E1 |]. split; [| exact E3].
  destruct Room as (B1 & _ & B3). destruct E2 as (E2 & E4). split; [exact E2 |]. intros i I. rewrite M4; [now apply E4 | lia |]. apply not_world; [exact W |]. apply B3. lia.
Qed.
Lemma call_step k q m c cp q' : winv k q m -> nth_error (prm ++ body) k = Some c -> nth_error ps k = Some cp -> call_part c = true -> istep call lab frame params c q = INext q' ->
  exists m', steps_with K lab F (pos k, m) (pos (S k), m') /\ winv (S k) q' m'.
Proof.
  intros I LT Ep Cp Si. assert (E : nth_error all k = Some c) by (rewrite app_assoc, nth_error_app1 by (apply nth_error_Some; congruence); exact LT).
  assert (Ef := here _ _ E). assert (Cu := Cuts _ _ _ E Ep). destruct (piece_at _ _ Ep) as (A & B & EA & LA & PS). assert (Fi := Fits _ _ LT). rewrite Cp in Fi.
  destruct c as [t d f g | | |]; try discriminate Cp. destruct Cu as (st & st' & Gi & Ev & Spt).
  assert (Lp : (length prm <= k)%nat).
  { destruct (Nat.lt_ge_cases k (length prm)) as [L | L]; [| exact L]. rewrite nth_error_app1 in LT by exact L. destruct (arg_shape _ _ LT) as (off & s & r & Ec & _). rewrite Ec in Cp. discriminate Cp. }
  assert (Ib : In (IMMC_INST t d f g) body) by (rewrite nth_error_app2 in LT by exact Lp; eapply nth_error_In, LT). specialize (Spt (fun w W => Wri _ _ Ib W)).
  assert (Nret : i_ret q = None).
  { destruct (wi_ret _ _ _ I) as [R | (_ & [L | J])]; [exact R | assert (k < length (prm ++ body))%nat by (apply nth_error_Some; congruence); lia |]. rewrite LT in J. injection J as -> -> -> ->. discriminate Cp. }
  destruct (wi_phase _ _ _ I) as (p & Pp & St). destruct (phase_here _ _ E) as (p0 & p' & P0 & Pn & Ps). rewrite Pp in P0. injection P0 as <-. assert (On := istep_on _ _ _ _ _ _ _ Si).
  assert (NX : forall m2, steps_with K lab F (pos k, m) (pos (S k), m2) -> agree frame q' m2 -> (forall r, In r saved_regs -> rget (regs m2) r = rget (regs m) r) -> (rget (regs m2) RBX = rget (regs m) RBX \/ 1 <= ev) ->
     (forall a, sp <= a -> ~ accessible (w_mem (i_world q)) a 1 -> peek (mem m2) a = peek (mem m) a) -> regions (w_mem (i_world q')) = regions (w_mem (i_world q)) -> regions (mem m2) = regions (mem m) ->
     (forall r, live fn (3 + k) r -> has place q' m2 r) -> i_ret q' = None -> in_range m2 -> stack_is p' q' m2 -> exists m', steps_with K lab F (pos k, m) (pos (S k), m') /\ winv (S k) q' m').
  { intros m2 X1 X2 X3 X4 X5 X6 X7 X8 X9 X10 X11. exists m2. split; [exact X1 |]. destruct I as [I1 I2 I3 I4 I5 I6 I7 I8 I9 I10 I11]. constructor; auto.
    - intros r J. rewrite X3 by exact J. now apply I2.
    - destruct X4 as [X4 | X4]; [rewrite X4; exact I3 | now right].
    - intros a P N. rewrite X5; [now apply I4 | exact P | now apply not_world].
    - congruence.
    - congruence.
    - intros L. lia.
    - exists p'. split; [exact Ps | exact X11]. }
  assert (Same : forall q2, i_regs q2 = i_regs q -> forall m2, writes (IMMC_INST t d f g) = None -> (forall k, k <> RSP -> rget (regs m2) k = rget (regs m) k) -> forall r, live fn (3 + k) r -> has place q2 m2 r).
  { intros q2 Rq m2 W Rm r Lr s x Ex. rewrite Rq in Ex. assert (Lb : live fn (2 + k) r) by (apply (sp_before _ _ _ _ _ _ Spt); [split; [exact On | exact Lr] | rewrite W; discriminate]). destruct (wi_live _ _ _ I _ Lb _ _ Ex) as (y & Y1 & Y2). exists y. split; [exact Y1 |]. rewrite Rm; [exact Y2 |]. intros ->. apply machine_reg_kept in Y1. apply Y1. cbn. tauto. }
  assert (Stay : cp = [] -> steps_with K lab F (pos k, m) (pos (S k), m)) by (intros ->; rewrite PS; cbn [length]; rewrite Nat.add_0_r; apply with_refl).
  destruct t; try discriminate Cp.
  - (* STARG *)
    destruct (next_starg _ _ _ _ _ Pn) as (s & r & f' & n & kk & -> & -> & -> & -> & Kn & Er & ->). cbn [stack_is] in St. destruct St as (K1 & K2 & Rs & slots & Ea & Hs). cbn [renamed] in Gi, Fi. rewrite !(renamed_some place) in Gi, Fi. change (renamed_operand place None) with (@None ope) in Gi. cbn [call_fits] in Fi. destruct Fi as (F1 & F2 & F3).
    cbn [istep] in Si. destruct (operand_size f') as [z |] eqn:Zf; [| discriminate Si]. destruct (ivalue q f') as [x |] eqn:Vf; [| discriminate Si]. rewrite Ea in Si. injection Si as <-.
    assert (Va : value m (SimProofs.ren place f') = Some x) by (eapply value_ok; [exact Vf |]; intros y Y; apply (wi_live _ _ _ I); apply (sp_reads _ _ _ _ _ _ Spt); cbn; rewrite !in_app_iff; left; exact Y).
    destruct Room as (B1 & B2 & B3). assert (La : low S8 (rget (regs m) RSP - 8) = sp - 8 * (kk + 1)) by (rewrite Rs, low_small; [lia | change (2 ^ nbits S8) with (2 ^ 64); lia]).
    destruct (starg_correct (SimProofs.ren place f') st cp st' lab m x Gi F1 F3 F2 Va) as (m2 & w & Ru & Wr & Lw & R2 & R3).
    { rewrite La. eapply accessible_regions; [exact (wi_regions _ _ _ I) |]. apply B2. lia. }
    rewrite La in Wr, R2. assert (Wc : forall b, 0 <= b -> b < sp - 8 * (kk + 1) \/ sp - 8 * kk <= b -> peek (mem m2) b = peek (mem m) b).
    { intros b P H. rewrite (proj2 Wr) by exact P. destruct (_ && _) eqn:Y; [lia | reflexivity]. }
    apply (NX m2).
    + rewrite PS, <- LA. apply own_with. eapply runs_steps; [exact EA | exact Ru].
    + destruct (wi_agree _ _ _ I) as [G1 [G2 G3] G4]. constructor; [rewrite R3 by discriminate; exact G1 | | eapply written_byte_memory; [exact G4 | exact Wr]]. split.
      * intros a' n' H. eapply written_accessible; [exact Wr | now apply G2].
      * intros b H. rewrite Wc; [now apply G3 | apply H |]. destruct (Z.lt_ge_cases b (sp - 8 * (kk + 1))); [now left |]. right. destruct (Z.lt_ge_cases b (sp - 8 * kk)); [| assumption]. exfalso. apply (B3 b); [lia |]. eapply accessible_regions; [symmetry; exact (wi_world _ _ _ I) | exact H].
    + intros y Y. apply R3. intros ->. cbn in Y. intuition discriminate.
    + left. apply R3. discriminate.
    + intros b H _. apply Wc; lia.
    + reflexivity.
    + apply Wr.
    + apply Same; [reflexivity | reflexivity | exact R3].
    + exact Nret.
    + eapply runs_range; [exact (wi_range _ _ _ I) | exact Ru].
    + cbn [stack_is]. split; [lia |]. split; [exact K2 |]. split; [lia |]. eexists. split; [reflexivity |]. intros j J. unfold upd. destruct (Z.eqb_spec (n - (kk + 1) + j) (reg_id r)) as [Ej | Nj].
      * assert (j = 0) by lia. subst j. exists z, (low z x), (low S8 w). split; [reflexivity |]. split; [rewrite Z.add_0_r; apply (written_holds (mem m) S8); [lia | exact Wr] |]. rewrite low_low_le by (destruct z; cbn; lia). apply Lw. rewrite (ren_size place). exact Zf.
      * destruct (Hs (j - 1)) as (z' & x' & w' & E1 & E2 & E3); [lia |]. exists z', x', w'. split; [replace (n - (kk + 1) + j) with (n - kk + (j - 1)) by lia; exact E1 |]. split; [| exact E3]. replace (sp - 8 * (kk + 1) + 8 * j) with (sp - 8 * kk + 8 * (j - 1)) by lia.
        eapply (written_holds_other (mem m)); [lia | exact Wr | right; lia | exact E2].
  - (* CALL *)
    destruct (next_call _ _ _ _ _ Pn) as (l & sn & i & -> & -> & -> & Li & ->). cbn [stack_is] in St. destruct St as (K1 & K2 & Rs & slots & Ea & Hs). cbn [renamed] in Gi, Fi. rewrite !(renamed_some place) in Gi. cbn [SimProofs.ren] in Gi.
    set (n := wraps 32 (sval i)) in *. destruct (call_does _ _ _ _ _ _ _ _ _ _ Si) as (a & slots0 & rr & vs & x & W' & Ll & Ea0 & Cv & Cl & W1 & W2 & W3 & W4). rewrite Ea in Ea0. injection Ea0 as <- <-. rewrite Li in Cv.
    destruct (collected _ _ _ _ Cv) as (Lv & Av). destruct Room as (B1 & B2 & B3).
    destruct (choose_list (fun j w => exists z y, slots (Z.of_nat j) = Some (z, y) /\ holds (mem m) (sp - 8 * n + 8 * Z.of_nat j) 8 w /\ low z w = y) (Z.to_nat n) 0) as (ws & Lw & Aw).
    { intros j J. destruct (Hs (Z.of_nat j)) as (z & y & w & E1 & E2 & E3); [lia |]. exists w, z, y. replace (n - n + Z.of_nat j) with (Z.of_nat j) in E1 by lia. auto. }
    assert (Lws : Z.of_nat (length ws) = n) by lia.
    destruct (call_correct (renamed_operand place d) (IMMC_OPERAND_LABEL l) sn i st cp st' lab m ws Gi) as (prc & cc & poc & mc & i1 & Ecp & Rc & Ic & Xc & Mc & Sc & _ & Ac & Bk).
    { cbn [count_of]. fold n. lia. } { exact Fi. } { exact (wi_range _ _ _ I). } { exact (ag_bytes _ _ _ (wi_agree _ _ _ I)). } { rewrite Lws, Rs. lia. }
    { intros j w J. assert (Lj : (j < length ws)%nat) by (apply nth_error_Some; congruence). rewrite Rs. split; [| destruct (Aw _ _ J) as (z & y & _ & H & _); exact H]. eapply accessible_regions; [exact (wi_regions _ _ _ I) |]. replace (sp - 8 * n + 8 * Z.of_nat j) with (sp - 8 * (n - Z.of_nat j)) by lia. apply B2. lia. }
    rewrite Lws, Z.min_r in Sc by lia. replace (rget (regs m) RSP + 8 * n) with sp in Sc by lia. assert (Rgc := runs_range _ _ _ _ (wi_range _ _ _ I) Rc).
    destruct (Do a vs (i_world q) x W' mc Cl Rgc) as (Rw & Do2).
    { rewrite Mc. exact (ag_bytes _ _ _ (wi_agree _ _ _ I)). } { exact (wi_world _ _ _ I). } { rewrite Mc. exact (wi_regions _ _ _ I). } { exact Sc. } { rewrite Mc. exact (ag_seen _ _ _ (wi_agree _ _ _ I)). }
    { intros j z y J P. assert (Lj : (Z.to_nat j < length vs)%nat) by (apply nth_error_Some; congruence). destruct (nth_error ws (Z.to_nat j)) as [w |] eqn:Ew; [| apply nth_error_None in Ew; lia]. destruct (Aw _ _ Ew) as (z' & y' & E1 & E2 & E3). cbn [Nat.add] in E1. rewrite Z2Nat.id in E1 by exact P. assert (E4 := Av _ _ J). rewrite Z2Nat.id, Z.add_0_l in E4 by exact P. rewrite E1 in E4. injection E4 as -> ->.
      assert (exists r, argument_reg j = Some r) as (r & Er). { assert (Hj : j = 0 \/ j = 1 \/ j = 2 \/ j = 3 \/ j = 4 \/ j = 5) by lia. destruct Hj as [-> | [-> | [-> | [-> | [-> | ->]]]]]; eexists; reflexivity. }
      exists r. split; [exact Er |]. rewrite (Ac (Z.to_nat j) w r Ew); [exact E3 |]. rewrite Z2Nat.id by exact P. exact Er. }
    destruct (Do2 (S (length A + length prc))) as (m2 & Kc & Rt & Rg2 & Bm2 & Rr2 & Sn2 & Va2 & Kp2).
    destruct (Bk m2 Rt) as (m3 & R3 & M3 & S3 & L3 & D3 & C3 & _).
    assert (Ev1 : (Z.to_nat (x_evac st') <= 1)%nat) by lia.
    assert (Ks : forall y, In y saved_regs -> rget (regs m3) y = rget (regs m) y).
    { intros y Y. apply C3; [cbn in Y |- *; tauto | intros ->; cbn in Y; intuition discriminate |]. destruct (Z.to_nat (x_evac st')) as [| [|]]; [intros [] | | lia]. cbn. intros [<- | []]. cbn in Y. intuition discriminate. }
    apply (NX m3).
    + destruct (insns_cons _ _ _ Ic) as (t0 & s0 & d0 & i0 & k0 & -> & De & I0 & Ei). injection I0 as <-. injection Ei as ->. rewrite Ecp in EA. rewrite PS, <- LA, Ecp.
      eapply with_trans; [apply own_with; eapply (runs_steps lab F prc A ((X64_INST t0 s0 d0 :: poc) ++ B)); [rewrite EA, <- app_assoc; reflexivity | exact Rc] |].
      eapply with_more; [eapply (with_call K lab F (length A + length prc)%nat mc t0 s0 d0 i0 l a m2); [| exact De | exact Xc | exact Ll | exact Kc] |].
      { rewrite EA, <- (app_length A), <- app_assoc, app_assoc. cbn [app]. apply nth_mid. }
      apply own_with. replace (S (length A + length prc)) with (length (A ++ prc ++ [X64_INST t0 s0 d0])) by (rewrite !app_length; cbn [length]; lia).
      replace (length A + length (prc ++ X64_INST t0 s0 d0 :: poc))%nat with (length (A ++ prc ++ [X64_INST t0 s0 d0]) + length poc)%nat by (rewrite !app_length; cbn [length]; lia).
      eapply (runs_steps lab F poc _ B); [rewrite EA, <- !app_assoc; reflexivity | exact R3].
    + constructor; [rewrite Ks by (now left); exact (ag_frame _ _ _ (wi_agree _ _ _ I)) | rewrite W1, M3; exact Sn2 | rewrite M3; exact Bm2].
    + exact Ks.
    + destruct (Z.to_nat (x_evac st')) as [| e0] eqn:Ee; [left | right; lia]. apply C3; [cbn; tauto | discriminate | intros []].
    + intros b P N. rewrite M3, Kp2 by assumption. now rewrite Mc.
    + rewrite W1, Rw. symmetry. exact (wi_world _ _ _ I).
    + rewrite M3, Rr2. symmetry. exact (wi_regions _ _ _ I).
    + intros r Lr. destruct ((fun a b : option Z => ltac:(decide equality; apply Z.eq_dec) : {a = b} + {a <> b}) (writes (IMMC_INST IMMC_INST_CALL d (Some (IMMC_OPERAND_LABEL l)) (Some (IMMC_OPERAND_INT sn i)))) (Some r)) as [Wr | Nw].
      * destruct d as [d |]; [| discriminate Wr]. destruct W4 as (sf & rd & z & -> & Ez & Er). cbn in Wr. injection Wr as <-. intros s y H. rewrite Er in H. unfold upd in H. rewrite Z.eqb_refl in H. injection H as <- <-.
        rewrite (renamed_some place) in Gi. cbn [SimProofs.ren] in Gi. destruct (call_moves _ _ _ _ _ _ Gi) as (r0 & k0 & Er0 & Mk). cbn in Er0. injection Er0 as <-. cbn [reg_id] in Mk. exists k0. split; [exact Mk |].
        rewrite (D3 _ z k0 (renamed_some place _) Ez Mk). exact (Va2 _ (Fit _ _ _ z a (nth_error_In _ _ Ef) Ez Ll)).
      * assert (Lb : live fn (2 + k) r) by (apply (sp_before _ _ _ _ _ _ Spt); [split; [exact On | exact Lr] | exact Nw]). destruct (sp_marked _ _ _ _ _ _ Spt r (conj On Lr) Nw) as (Lm & Pm).
        intros s y H. assert (Hq : i_regs q' r = i_regs q r). { destruct d as [d |]; [| now rewrite W4]. destruct W4 as (sf & rd & z & -> & _ & Er). rewrite Er. unfold upd. destruct (Z.eqb_spec r (reg_id rd)) as [-> |]; [exfalso; apply Nw; reflexivity | reflexivity]. }
        rewrite Hq in H. destruct (wi_live _ _ _ I _ Lb _ _ H) as (k0 & Mk & Lk). exists k0. split; [exact Mk |]. rewrite (L3 _ k0 Lm); [exact Lk | | rewrite Z2Nat.id by exact Pm; exact Mk].
        rewrite Z2Nat.id by exact Pm. destruct d as [d |]; [| discriminate]. destruct W4 as (sf & rd & z & -> & _ & _). cbn. intros X. injection X as X. apply (sp_kept _ _ _ _ _ _ Spt r (reg_id rd) (conj On Lr) eq_refl); [intros Y; apply Nw; cbn; now rewrite Y | exact X].
    + rewrite W3. exact Nret.
    + eapply runs_range; [exact Rg2 | exact R3].
    + cbn [stack_is]. rewrite S3, W2, Ea. split; [exact Sc | eauto].
  - (* PREP *)
    destruct (next_prep _ _ _ _ _ Pn) as (s & i & -> & -> & -> & -> & Ri & ->). cbn [stack_is] in St. destruct St as (Rs & Ea). injection Si as <-.
    assert (cp = []). { cbn [renamed renamed_operand option_map] in Gi. cbn [gen_inst_x64code] in Gi. unfold gen_prep in Gi. cbn in Gi. fold (wraps 32 (sval i)) in Gi. destruct (_ >? _) eqn:Y in Gi; [unfold NUM_ARG_REGS in Y; lia |]. cbn in Gi. unfold finish in Gi. apply bind_ok in Gi as (ls & _ & Gi). congruence. }
    apply (NX m).
    + now apply Stay.
    + destruct (wi_agree _ _ _ I). constructor; assumption.
    + reflexivity.
    + now left.
    + reflexivity.
    + reflexivity.
    + reflexivity.
    + apply Same; [reflexivity | reflexivity | auto].
    + exact Nret.
    + exact (wi_range _ _ _ I).
    + cbn [stack_is]. split; [lia |]. split; [lia |]. split; [lia |]. eexists. split; [cbn; rewrite Ea; reflexivity |]. intros j J. lia.
  - (* CLEAN *)
    destruct (next_clean _ _ _ _ _ Pn) as (s & i & -> & -> & -> & -> & Ri & ->). cbn [stack_is] in St. destruct St as (Rs & slots & Ea). cbn [istep] in Si. rewrite Ea in Si. injection Si as <-.
    assert (cp = []). { cbn [renamed renamed_operand option_map] in Gi. cbn [gen_inst_x64code] in Gi. unfold gen_clean in Gi. cbn in Gi. fold (wraps 32 (sval i)) in Gi. destruct (_ >? _) eqn:Y in Gi; [unfold NUM_ARG_REGS in Y; lia |]. cbn in Gi. unfold finish in Gi. apply bind_ok in Gi as (ls & _ & Gi). congruence. }
    apply (NX m).
    + now apply Stay.
    + destruct (wi_agree _ _ _ I). constructor; assumption.
    + reflexivity.
    + now left.
    + reflexivity.
    + reflexivity.
    + reflexivity.
    + apply Same; [reflexivity | reflexivity | auto].
    + exact Nret.
    + exact (wi_range _ _ _ I).
    + cbn [stack_is]. split; [exact Rs | reflexivity].
Qed.
Lemma outside_at k t w n : nth_error all k = Some (IMMC_LABEL t w n) -> phase_after Outside (firstn k all) = Some Outside.
Proof. intros E. destruct (phase_here _ _ E) as (p & p' & P1 & P2 & _). now rewrite P1, (phase_boundary _ _ _ P2 eq_refl eq_refl). Qed.
Lemma label_here2 n p : label_at n fn = Some p -> forall k, p = (2 + k)%nat -> (k <= length (prm ++ body))%nat -> exists t w, nth_error all k = Some (IMMC_LABEL t w n).
Proof.
  intros La k -> Lk. apply label_at_nth in La as (t & w & E). exists t, w. rewrite Efn in E. cbn [Nat.add nth_error] in E.
  replace (prm ++ body ++ [IMMC_LABEL IMMC_LABEL_NORMAL v' stop; IMMC_INST IMMC_INST_LEAVE None sz None]) with ((prm ++ body ++ [IMMC_LABEL IMMC_LABEL_NORMAL v' stop]) ++ [IMMC_INST IMMC_INST_LEAVE None sz None]) in E by (rewrite <- !app_assoc; reflexivity).
  rewrite nth_error_app1 in E; [exact E |]. rewrite app_assoc, app_length. cbn. lia.
Qed.
Lemma one_step k q m pc q' : winv k q m -> (k <= length (prm ++ body))%nat -> imove call lab frame params fn (2 + k) q = IAt pc q' ->
  exists k' m', pc = (2 + k')%nat /\ (k' <= S (length (prm ++ body)))%nat /\ steps_with K lab F (pos k, m) (pos k', m') /\ winv k' q' m'.
Proof.
  intros I Lk H. destruct (nth_error all k) as [c |] eqn:E; [| apply nth_error_None in E; rewrite app_assoc, app_length in E; cbn in E; lia].
  assert (Ef := here _ _ E). destruct (nth_error ps k) as [cp |] eqn:Ep; [| apply nth_error_None in Ep; rewrite Lps, app_assoc, app_length in Ep; cbn in Ep; lia].
  assert (Cu := Cuts _ _ _ E Ep). destruct (piece_at _ _ Ep) as (A & B & EA & LA & PS). unfold imove in H. rewrite Ef in H.
  assert (LT : (k < length (prm ++ body))%nat -> nth_error (prm ++ body) k = Some c) by (intros L; rewrite app_assoc, nth_error_app1 in E by exact L; exact E).
  destruct (wi_phase _ _ _ I) as (p & Pp & St). destruct (phase_here _ _ E) as (p0 & p' & P0 & Pn & Ps). rewrite Pp in P0. injection P0 as <-.
  assert (Lab : forall t w n, c = IMMC_LABEL t w n -> exists k' m', pc = (2 + k')%nat /\ (k' <= S (length (prm ++ body)))%nat /\ steps_with K lab F (pos k, m) (pos k', m') /\ winv k' q' m').
  { intros t w n ->. destruct Cu as (w' & ->). cbn in H. injection H as <- <-. exists (S k), m. split; [lia |]. split; [lia |]. split.
    { apply own_with. eapply own_more; [| apply own_refl]. rewrite PS. cbn [length]. rewrite Nat.add_1_r. eapply own_label. rewrite EA, <- LA. cbn [app]. apply nth_mid. }
    destruct I as [I1 I2 I3 I4 I5 I6 I7 I8 I9 I10 I11]. constructor; auto.
    - intros r L. apply I7. eapply live_later; [exact Ef | discriminate | exists (IMMC_LABEL t w n); split; [exact Ef | left; split; reflexivity] | exact L].
    - intros L. apply I8. lia.
    - destruct I9 as [I9 | (I9 & [L | J])]; [now left | right; split; [exact I9 | left; lia] |]. destruct (Nat.lt_ge_cases k (length (prm ++ body))) as [L | L]; [rewrite (LT L) in J; discriminate J | right; split; [exact I9 | left; lia]].
    - exists p'. split; [exact Ps |]. now rewrite (phase_plain _ _ _ Pn eq_refl). }
  destruct (Nat.eq_dec k (length (prm ++ body))) as [Ek | Nk]; [rewrite app_assoc, Ek, nth_error_app2, Nat.sub_diag in E by lia; injection E as <-; eapply Lab; reflexivity |].
  assert (Lk' : (k < length (prm ++ body))%nat) by lia. specialize (LT Lk'). assert (Fi := Fits _ _ LT).
  destruct (call_part c) eqn:Cp.
  { destruct (istep call lab frame params c q) as [q2 | n q2 | q2 |] eqn:Si; try discriminate H; [| apply SimProofs5.istep_goto in Si; destruct c as [t d f g | | |]; try discriminate Cp; destruct t; try discriminate Cp; discriminate Si]. injection H as <- <-.
    destruct (call_step _ _ _ _ _ _ I LT Ep Cp Si) as (m' & X1 & X2). exists (S k), m'. split; [reflexivity |]. split; [lia |]. split; [exact X1 | exact X2]. }
  destruct c as [t d f g | | | t w n]; [| destruct Fi.. | eapply Lab; reflexivity]. destruct Cu as (st & st' & Gi & Ev & Spt).
  assert (Pe := phase_plain _ _ _ Pn Cp). subst p'.
  assert (Nret : (t <> IMMC_INST_JMP) -> i_ret q = None).
  { intros NJ. destruct (wi_ret _ _ _ I) as [R | (_ & [L | J])]; [exact R | lia |]. rewrite LT in J. congruence. }
  assert (NX : forall q2 m2, istep call lab frame params (IMMC_INST t d f g) q = INext q2 -> runs lab cp m (Next m2) -> moved frame q m q2 m2 st' -> (forall r, goes_on (IMMC_INST t d f g) = true /\ live fn (3 + k) r -> has place q2 m2 r) ->
     ((S k < length prm)%nat -> forall i a, argument_reg i = Some a -> rget (regs m2) a = rget (regs m) a) ->
     (i_ret q2 = None \/ (exists s x, i_ret q2 = Some (s, x) /\ low s (rget (regs m2) RAX) = x) /\ nth_error (prm ++ body) (S k) = Some (IMMC_INST IMMC_INST_JMP (Some (IMMC_OPERAND_LABEL stop)) None None)) ->
     exists k' m', pc = (2 + k')%nat /\ (k' <= S (length (prm ++ body)))%nat /\ steps_with K lab F (pos k, m) (pos k', m') /\ winv k' q' m').
  { intros q2 m2 Si Ru Mv Ha Ar Re. rewrite Si in H. injection H as <- <-. exists (S k), m2. split; [lia |]. split; [lia |]. split; [apply own_with; rewrite PS, <- LA; eapply runs_steps; [exact EA | exact Ru] |].
    destruct I as [I1 I2 I3 I4 I5 I6 I7 I8 I9 I10 I11]. assert (Mv2 := Mv). destruct Mv2 as [M1 M2 M3 M4 M5 M6]. destruct Room as (B1 & _). constructor; auto.
    - intros r J. rewrite M2 by (right; exact J). now apply I2.
    - destruct M3 as [M3 | M3]; [rewrite M3; exact I3 | right; lia].
    - intros a P N. rewrite M4; [now apply I4 | lia | now apply not_world].
    - congruence.
    - congruence.
    - intros r L. apply Ha. split; [| exact L]. eapply istep_on, Si.
    - intros L i a J. rewrite (Ar L _ _ J). eapply I8; [lia | exact J].
    - destruct Re as [Re | (Re & J)]; [now left | right; split; [exact Re | now right]].
    - eapply runs_range; [exact I10 | exact Ru].
    - exists p. split; [exact Ps |]. eapply stack_moved; [exact I5 | exact St | exact Mv | eapply args_next; [exact Cp | exact Si]]. }
  destruct (Nat.lt_ge_cases k (length prm)) as [Lp | Lp].
  - (* a parameter *)
    rewrite nth_error_app1 in LT by exact Lp. destruct (arg_shape _ _ LT) as (off & s & r & Ec & Ar). injection Ec as -> -> -> ->. cbn [renamed renamed_operand] in Gi.
    destruct (istep call lab frame params (IMMC_INST IMMC_INST_LDARG (Some (IMMC_OPERAND_MEM off)) (Some (IMMC_OPERAND_ARG s r)) None) q) as [q2 | n q2 | q2 |] eqn:Si; [| apply SimProofs5.istep_goto in Si; discriminate Si | discriminate H | discriminate H].
    destruct (ldarg_sim place call lab frame params (fun _ => False) (fun _ => False) st cp st' q m q2 (fun _ N => match N with end) (wi_agree _ _ _ I) off s r) as ((m2 & Ru & Mv & _ & Rt) & Ka); [| exact Ar | intros x [] | exact Gi | exact Si |].
    { intros i z x a N P J. rewrite (wi_args _ _ _ I ltac:(lia) _ _ J). eapply Args; eassumption. }
    eapply NX; [reflexivity | exact Ru | exact Mv | intros x (_ & L); destruct (none_live (S k) x ltac:(lia) L) | intros _ i a J; exact (Ka _ Ru _ _ J) | left; rewrite Rt; apply Nret; discriminate].
  - assert (Ib : In (IMMC_INST t d f g) body) by (rewrite nth_error_app2 in LT by exact Lp; eapply nth_error_In, LT). assert (La : loads_argument (IMMC_INST t d f g) = false) by (rewrite Forall_forall in Lbody; now apply Lbody).
    specialize (Spt (fun w W => Wri _ _ Ib W)). destruct (returns_value (IMMC_INST t d f g)) eqn:Rv.
    + destruct t; try discriminate Rv. unfold fits in Fi. cbn [renamed] in Fi, Gi. destruct d as [d |]; [rewrite (renamed_some place) in Fi; destruct Fi |]. destruct f as [f |]; [| destruct Fi]. destruct g as [g |]; [rewrite !(renamed_some place) in Fi; destruct Fi |].
      change (renamed_operand place None) with (@None ope) in Fi, Gi. rewrite (renamed_some place) in Fi, Gi. cbv beta iota in Fi. destruct Fi as (F1 & F2).
      destruct (istep call lab frame params (IMMC_INST IMMC_INST_STRET None (Some f) None) q) as [q2 | n q2 | q2 |] eqn:Si; [| apply SimProofs5.istep_goto in Si; discriminate Si | discriminate H | discriminate H].
      destruct (stret_sim place call lab frame params _ _ _ _ _ _ _ _ _ (wi_live _ _ _ I) (wi_agree _ _ _ I) f Spt F1 F2 Gi Si) as (m2 & Ru & Mv & Ha & Re).
      eapply NX; [reflexivity | exact Ru | exact Mv | exact Ha | intros; lia |]. right. split; [exact Re |]. rewrite nth_error_app2 in LT |- * by lia. destruct (nth_error_split _ _ LT) as (b1 & b2 & Eb & Lb). destruct (Ret _ _ _ Eb eq_refl) as (b3 & ->). rewrite Eb. rewrite nth_error_app2 by lia. replace (S k - length prm - length b1)%nat with 1%nat by lia. reflexivity.
    + assert (X := inst_sim place call lab frame params _ _ _ _ _ _ _ _ _ _ _ _ (wi_agree _ _ _ I) (wi_live _ _ _ I) Spt Fi La Rv Gi).
      destruct (istep call lab frame params (IMMC_INST t d f g) q) as [q2 | n q2 | q2 |] eqn:Si; [| | discriminate H | discriminate H].
      * destruct X as (m2 & Ru & Mv & Ha & Re). eapply NX; [reflexivity | exact Ru | exact Mv | exact Ha | intros; lia |]. left. rewrite Re. apply Nret. intros ->. apply istep_on in Si. discriminate Si.
      * destruct X as (m2 & Ru & Mv & Ha & Re & Gt & Jm). destruct (label_at n fn) as [p' |] eqn:Ln; [| discriminate H]. injection H as <- <-.
        assert (No : n <> own) by (intros ->; exact (Own _ Ib Gt)). destruct (target n p' eq_refl No Ln) as (k' & t' & w' & -> & Lk2 & Et). exists k', m2. split; [reflexivity |]. split; [lia |]. split; [apply own_with; rewrite <- LA; eapply runs_goto; [exact Et | exact EA | exact Ru] |].
        assert (Po : p = Outside) by (eapply phase_boundary; [exact Pn | exact Cp |]; cbn [boundary]; rewrite Gt; reflexivity). subst p.
        destruct (label_here2 _ _ Ln k' eq_refl ltac:(lia)) as (t2 & w2 & El). assert (Pk := outside_at _ _ _ _ El).
        assert (St2 : stack_is Outside q2 m2) by (eapply stack_moved; [exact (wi_world _ _ _ I) | exact St | exact Mv | eapply args_goto; exact Si]).
        destruct Mv as [M1 M2 M3 M4 M5 M6]. destruct I as [I1 I2 I3 I4 I5 I6 I7 I8 I9 I10 I11]. destruct Room as (B1 & _). constructor; auto.
        -- intros r J. rewrite M2 by (right; exact J). now apply I2.
        -- destruct M3 as [M3 | M3]; [rewrite M3; exact I3 | right; lia].
        -- intros a P N. rewrite M4; [now apply I4 | lia | now apply not_world].
        -- congruence.
        -- congruence.
        -- intros r L. apply Ha. eapply live_later; [exact Ef | | exists (IMMC_INST t d f g); split; [exact Ef | right; exists n; split; [exact Gt | exact Ln]] | exact L]. cbn in Gt |- *. destruct t; try discriminate Gt; destruct d as [[] |]; try discriminate Gt; discriminate.
        -- intros L i a J. lia.
        -- destruct I9 as [I9 | (I9 & J)]; [left; congruence |]. right. destruct J as [L | J]; [lia |]. rewrite LT in J. injection J as -> -> -> ->. rewrite (Jm eq_refl), Re. split; [exact I9 |]. cbn in Gt. injection Gt as <-. rewrite stop_at in Ln. injection Ln as Ln. left. lia.
        -- eapply runs_goto_range; [exact I10 | exact Ru].
        -- exists Outside. split; [exact Pk | exact St2].
Qed.
End Run.
