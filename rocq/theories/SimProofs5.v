(** Proofs for C48: the body of a function without calls *)
From Coq Require Import Lia ZifyBool.
From Verif Require Import Base ElabProofs ImmcModel LabelSpec X64Model X64genModel X64Decode OpSpec CSem ImmcSem IsaProofs IsaMemProofs X64genProofs RegSpec RegProofs2 RegProofs6 OrderProofs CallSpec MarkSpec SimSpec SimProofs SimProofs2 SimProofs3 SimProofs4 X64Isa.
Local Open Scope Z_scope.

(** * Straight-line code within a function *)
Lemma steps_trans e F a b c : own_steps e F a b -> own_steps e F b c -> own_steps e F a c.
Proof. intros H K. induction H; [exact K |]. eapply own_more; [eassumption | auto]. Qed.
Lemma steps_first e F a b c : own_step e F a b -> own_steps e F b c -> own_steps e F a c.
Proof. apply own_more. Qed.
Lemma nth_mid {T} (A : list T) x B : nth_error (A ++ x :: B) (length A) = Some x.
Proof. rewrite nth_error_app2, Nat.sub_diag by lia. reflexivity. Qed.
Lemma insns_cons c l is_ : insns (c :: l) = Some is_ -> exists t s d i k, c = X64_INST t s d /\ decode t s d = Some i /\ insns l = Some k /\ is_ = i :: k.
Proof. destruct c as [t s d | | |]; try discriminate. cbn. destruct (decode t s d) as [i |] eqn:D; [| discriminate]. destruct (insns l) as [k |]; [| discriminate]. intros H. injection H as <-. repeat eexists. exact D. Qed.
Lemma runs_steps e F : forall cp A B m m', F = A ++ cp ++ B -> runs e cp m (Next m') -> own_steps e F (length A, m) ((length A + length cp)%nat, m').
Proof.
  induction cp as [| c cp IH]; intros A B m m' EF (l & I & X).
  - injection I as <-. injection X as <-. cbn. rewrite Nat.add_0_r. apply own_refl.
  - apply insns_cons in I as (t & s & d & i & k & -> & D & I & ->). cbn [exec_list] in X. destruct (exec e i m) as [m1 | | | | |] eqn:Ex; try discriminate X.
    eapply steps_first; [eapply own_next; [rewrite EF; apply nth_mid | exact D | exact Ex] |]. replace (length A + length (X64_INST t s d :: cp))%nat with (length (A ++ [X64_INST t s d]) + length cp)%nat by (rewrite app_length; cbn; lia). replace (S (length A)) with (length (A ++ [X64_INST t s d])) by (rewrite app_length; cbn; lia).
    eapply IH; [rewrite EF, <- app_assoc; reflexivity | exists k; auto].
Qed.
Lemma runs_goto e F n m' q t' v : nth_error F q = Some (X64_LABEL t' v n) -> forall cp A B m, F = A ++ cp ++ B -> runs e cp m (Goto n m') -> own_steps e F (length A, m) (q, m').
Proof.
  intros Q. induction cp as [| c cp IH]; intros A B m EF (l & I & X).
  - injection I as <-. discriminate X.
  - apply insns_cons in I as (t & s & d & i & k & -> & D & I & ->). cbn [exec_list] in X. destruct (exec e i m) as [m1 | | | | |] eqn:Ex; try discriminate X.
    + eapply steps_first; [eapply own_next; [rewrite EF; apply nth_mid | exact D | exact Ex] |]. replace (S (length A)) with (length (A ++ [X64_INST t s d])) by (rewrite app_length; cbn; lia).
      eapply IH; [rewrite EF, <- app_assoc; reflexivity | exists k; auto].
    + injection X as -> ->. eapply own_more; [| apply own_refl]. eapply own_jump; [rewrite EF; apply nth_mid | exact D | exact Ex | exact Q].
Qed.
Lemma firstn_succ {T} : forall k (l : list T) x, nth_error l k = Some x -> firstn (S k) l = firstn k l ++ [x].
Proof. induction k as [| k IH]; intros [| y l] x H; try discriminate H; cbn in H |- *; [now injection H as -> |]. f_equal. now apply IH. Qed.
Lemma concat_cut {T} k (l : list (list T)) x : nth_error l k = Some x -> exists B, concat l = concat (firstn k l) ++ x ++ B.
Proof. intros H. apply nth_error_split in H as (a & b & -> & <-). exists (concat b). rewrite concat_app, firstn_app, firstn_all, Nat.sub_diag. cbn [firstn]. now rewrite app_nil_r. Qed.
Lemma istep_goto call lab frame params c q n q' : istep call lab frame params c q = IGoto n q' -> goes_to c = Some n.
Proof.
  destruct c as [t d f g | | |]; try discriminate. destruct t, d as [d |], f as [f |], g as [g |]; cbn [istep]; unfold put_result; intros H; try discriminate H;
    repeat (match type of H with context [match ?x with _ => _ end] => destruct x end; try discriminate H); try (injection H as <- <-; reflexivity).
Qed.
Lemma istep_on call lab frame params c q q' : istep call lab frame params c q = INext q' -> goes_on c = true.
Proof.
  destruct c as [t d f g | | |]; try reflexivity. destruct t; try reflexivity; intros H; exfalso; destruct d as [[] |], f as [f |], g as [g |]; cbn in H; unfold put_result in H; try discriminate H; repeat (match type of H with context [match ?x with _ => _ end] => destruct x end; try discriminate H).
Qed.
Lemma accessible_regions M M' a n : regions M' = regions M -> accessible M a n -> accessible M' a n.
Proof. unfold accessible. intros ->. auto. Qed.

Section Run.
Variables (place : Z -> Z) (call : caller) (lab : name -> option Z) (frame : Z) (params : list (size * Z)).
Variables (fn : list immc) (v : visibility) (own : name) (sz : option ope) (prm body : list immc) (v' : visibility) (stop : name).
Variables (F pre post : list x64) (ps : list (list x64)) (ev : Z).
Hypothesis Efn : fn = IMMC_LABEL IMMC_LABEL_FUNCTION v own :: IMMC_INST IMMC_INST_ENTER None sz None :: prm ++ body ++ [IMMC_LABEL IMMC_LABEL_NORMAL v' stop; IMMC_INST IMMC_INST_LEAVE None sz None].
Hypothesis Lprm : Forall (fun c => loads_argument c = true) prm.
Hypothesis Lbody : Forall (fun c => loads_argument c = false) body.
Hypothesis Ret : forall b1 c b2, body = b1 ++ c :: b2 -> returns_value c = true -> exists b3, b2 = IMMC_INST IMMC_INST_JMP (Some (IMMC_OPERAND_LABEL stop)) None None :: b3.
Hypothesis Own : forall c, In c body -> goes_to c <> Some own.
Hypothesis Wri : forall c r, In c body -> writes c = Some r -> 0 <= r.
Hypothesis Fits : forall p c, nth_error (prm ++ body) p = Some c -> fits (skipn (3 + p) fn) (List.map (renamed place) (skipn (3 + p) fn)) c (renamed place c).
Hypothesis Or : orderly fn.
Hypothesis ND : NoDup (labels fn).
Hypothesis EF : F = pre ++ concat ps ++ post.
Hypothesis Lps : length ps = length (prm ++ body ++ [IMMC_LABEL IMMC_LABEL_NORMAL v' stop]).
Hypothesis Cuts : forall p c cp, nth_error (prm ++ body ++ [IMMC_LABEL IMMC_LABEL_NORMAL v' stop]) p = Some c -> nth_error ps p = Some cp -> cut place ev fn (2 + p) c cp.
Variables (q1 : istate) (m1 : state).
Hypothesis Args : forall k s x a, nth_error params (Z.to_nat k) = Some (s, x) -> 0 <= k -> argument_reg k = Some a -> low s (rget (regs m1) a) = low s x.

Definition pos (k : nat) : nat := (length pre + length (concat (firstn k ps)))%nat.
(** the states when the instruction [k] of the body is reached *)
Record inv (k : nat) (q : istate) (m : state) : Prop := {
  in_agree : agree frame q m;
  in_kept : forall r, In r kept_regs -> rget (regs m) r = rget (regs m1) r;
  in_bx : rget (regs m) RBX = rget (regs m1) RBX \/ 1 <= ev;
  in_mem : forall a, 0 <= a -> ~ accessible (w_mem (i_world q1)) a 1 -> peek (mem m) a = peek (mem m1) a;
  in_world : regions (w_mem (i_world q)) = regions (w_mem (i_world q1));
  in_regions : regions (mem m) = regions (mem m1);
  in_live : forall r, live fn (2 + k) r -> has place q m r;
  in_args : (k < length prm)%nat -> forall i a, argument_reg i = Some a -> rget (regs m) a = rget (regs m1) a;
  in_ret : i_ret q = None \/ (exists s x, i_ret q = Some (s, x) /\ low s (rget (regs m) RAX) = x) /\ ((length (prm ++ body) <= k)%nat \/ nth_error (prm ++ body) k = Some (IMMC_INST IMMC_INST_JMP (Some (IMMC_OPERAND_LABEL stop)) None None)) }.
Lemma here k c : nth_error (prm ++ body ++ [IMMC_LABEL IMMC_LABEL_NORMAL v' stop]) k = Some c -> nth_error fn (2 + k) = Some c.
Proof.
  intros H. rewrite Efn. cbn [Nat.add nth_error]. replace (prm ++ body ++ [IMMC_LABEL IMMC_LABEL_NORMAL v' stop; IMMC_INST IMMC_INST_LEAVE None sz None]) with ((prm ++ body ++ [IMMC_LABEL IMMC_LABEL_NORMAL v' stop]) ++ [IMMC_INST IMMC_INST_LEAVE None sz None]) by (rewrite <- !app_assoc; reflexivity).
  rewrite nth_error_app1; [exact H |]. apply nth_error_Some. congruence.
Qed.
Lemma piece_at k cp : nth_error ps k = Some cp -> exists A B, F = A ++ cp ++ B /\ length A = pos k /\ pos (S k) = (pos k + length cp)%nat.
Proof.
  intros H. destruct (concat_cut _ _ _ H) as (B & E). exists (pre ++ concat (firstn k ps)), (B ++ post). split; [rewrite EF, E, <- !app_assoc; reflexivity |]. split; [unfold pos; now rewrite app_length |].
  unfold pos. rewrite (firstn_succ _ _ _ H), concat_app, app_length. cbn. rewrite app_nil_r. lia.
Qed.
Lemma target n p : goes_to (IMMC_INST IMMC_INST_JMP (Some (IMMC_OPERAND_LABEL n)) None None) = Some n -> n <> own -> label_at n fn = Some p -> exists k t w, p = (2 + k)%nat /\ (length prm <= k <= length (prm ++ body))%nat /\ nth_error F (pos k) = Some (X64_LABEL t w n).
Proof.
  intros _ N La. apply label_at_nth in La as (t & w & E). destruct p as [| [| k]]; [rewrite Efn in E; cbn in E; congruence | rewrite Efn in E; cbn in E; congruence |]. exists k.
  assert (E' : nth_error (prm ++ body ++ [IMMC_LABEL IMMC_LABEL_NORMAL v' stop]) k = Some (IMMC_LABEL t w n)).
  { rewrite Efn in E. cbn [nth_error] in E. replace (prm ++ body ++ [IMMC_LABEL IMMC_LABEL_NORMAL v' stop; IMMC_INST IMMC_INST_LEAVE None sz None]) with ((prm ++ body ++ [IMMC_LABEL IMMC_LABEL_NORMAL v' stop]) ++ [IMMC_INST IMMC_INST_LEAVE None sz None]) in E by (rewrite <- !app_assoc; reflexivity).
    destruct (Nat.lt_ge_cases k (length (prm ++ body ++ [IMMC_LABEL IMMC_LABEL_NORMAL v' stop]))) as [L | L]; [now rewrite nth_error_app1 in E |]. rewrite nth_error_app2 in E by exact L. destruct (k - _)%nat as [| [|]]; discriminate E. }
  destruct (nth_error ps k) as [cp |] eqn:Ep; [| apply nth_error_None in Ep; rewrite Lps in Ep; assert (k < length (prm ++ body ++ [IMMC_LABEL IMMC_LABEL_NORMAL v' stop]))%nat by (apply nth_error_Some; congruence); lia].
  destruct (Cuts _ _ _ E' Ep) as (w' & ->). exists X64_LABEL_NORMAL, w'. split; [reflexivity |]. split.
  - assert (k < length (prm ++ body ++ [IMMC_LABEL IMMC_LABEL_NORMAL v' stop]))%nat by (apply nth_error_Some; congruence). split; [| rewrite !app_length in *; cbn in *; lia].
    destruct (Nat.lt_ge_cases k (length prm)) as [L | L]; [| exact L]. rewrite nth_error_app1 in E' by exact L. rewrite Forall_forall in Lprm. assert (X := Lprm _ (nth_error_In _ _ E')). discriminate X.
  - destruct (piece_at _ _ Ep) as (A & B & E1 & E2 & _). rewrite E1, <- E2. cbn [app]. apply nth_mid.
Qed.
Lemma arg_shape k c : nth_error prm k = Some c -> exists off s r, c = IMMC_INST IMMC_INST_LDARG (Some (IMMC_OPERAND_MEM off)) (Some (IMMC_OPERAND_ARG s r)) None /\ argument_reg (reg_id r) <> None.
Proof.
  intros E. assert (Lc : loads_argument c = true) by (rewrite Forall_forall in Lprm; apply Lprm; eapply nth_error_In, E). assert (Fi := Fits k c ltac:(rewrite nth_error_app1 by (apply nth_error_Some; congruence); exact E)).
  destruct c as [t d f g | | |]; try discriminate Lc. destruct t; try discriminate Lc. cbn [renamed] in Fi. destruct d as [[] |], f as [[] |], g as [[] |]; cbn in Fi; try (destruct Fi; fail). eauto.
Qed.
Lemma none_live k r : (k <= length prm)%nat -> ~ live fn (2 + k) r.
Proof.
  intros Lk L. destruct (or_written _ Or _ _ L) as (p & c & Lp & E & W). rewrite Efn in E. destruct p as [| [| p]]; [injection E as <-; discriminate W | injection E as <-; discriminate W |]. cbn [nth_error] in E. rewrite nth_error_app1 in E by lia. destruct (arg_shape _ _ E) as (off & s & rr & -> & _). discriminate W.
Qed.
Lemma inv_start q : agree frame q1 m1 -> q = q1 -> i_ret q1 = None -> inv 0 q m1.
Proof. intros A -> R. constructor; auto; try lia. intros r L. destruct (none_live 0 r ltac:(lia) L). Qed.
Lemma not_world q a : regions (w_mem (i_world q)) = regions (w_mem (i_world q1)) -> ~ accessible (w_mem (i_world q1)) a 1 -> ~ accessible (w_mem (i_world q)) a 1.
Proof. intros R N A. apply N. eapply accessible_regions; [symmetry; exact R | exact A]. Qed.
Lemma stop_at : label_at stop fn = Some (2 + length (prm ++ body))%nat.
Proof.
  apply (label_is fn ND _ IMMC_LABEL_NORMAL v' stop). apply here. rewrite app_assoc, nth_error_app2, Nat.sub_diag by lia. reflexivity.
Qed.
Lemma one_step k q m pc q' : inv k q m -> (k <= length (prm ++ body))%nat -> imove call lab frame params fn (2 + k) q = IAt pc q' ->
  exists k' m', pc = (2 + k')%nat /\ (k' <= S (length (prm ++ body)))%nat /\ own_steps lab F (pos k, m) (pos k', m') /\ inv k' q' m'.
Proof.
  intros I Lk H. destruct (nth_error (prm ++ body ++ [IMMC_LABEL IMMC_LABEL_NORMAL v' stop]) k) as [c |] eqn:E; [| apply nth_error_None in E; rewrite app_assoc, app_length in E; cbn in E; lia].
  assert (Ef := here _ _ E). destruct (nth_error ps k) as [cp |] eqn:Ep; [| apply nth_error_None in Ep; rewrite Lps, app_assoc, app_length in Ep; cbn in Ep; lia].
  assert (Cu := Cuts _ _ _ E Ep). destruct (piece_at _ _ Ep) as (A & B & EA & LA & PS). unfold imove in H. rewrite Ef in H.
  assert (LT : (k < length (prm ++ body))%nat -> nth_error (prm ++ body) k = Some c) by (intros L; rewrite app_assoc, nth_error_app1 in E by exact L; exact E).
  assert (Lab : forall t w n, c = IMMC_LABEL t w n -> exists k' m', pc = (2 + k')%nat /\ (k' <= S (length (prm ++ body)))%nat /\ own_steps lab F (pos k, m) (pos k', m') /\ inv k' q' m').
  { intros t w n ->. destruct Cu as (w' & ->). cbn in H. injection H as <- <-. exists (S k), m. split; [lia |]. split; [lia |]. split.
    { eapply own_more; [| apply own_refl]. rewrite PS. cbn [length]. rewrite Nat.add_1_r. eapply own_label. rewrite EA, <- LA. cbn [app]. apply nth_mid. }
    destruct I as [I1 I2 I3 I4 I5 I6 I7 I8 I9]. constructor; auto.
    - intros r L. apply I7. eapply live_later; [exact Ef | discriminate | exists (IMMC_LABEL t w n); split; [exact Ef | left; split; reflexivity] | exact L].
    - intros L. apply I8. lia.
    - destruct I9 as [I9 | (I9 & [L | J])]; [now left | right; split; [exact I9 | left; lia] |]. destruct (Nat.lt_ge_cases k (length (prm ++ body))) as [L | L]; [rewrite (LT L) in J; discriminate J | right; split; [exact I9 | left; lia]]. }
  destruct (Nat.eq_dec k (length (prm ++ body))) as [Ek | Nk]; [rewrite app_assoc, Ek, nth_error_app2, Nat.sub_diag in E by lia; injection E as <-; eapply Lab; reflexivity |].
  assert (Lk' : (k < length (prm ++ body))%nat) by lia. specialize (LT Lk'). assert (Fi := Fits _ _ LT).
  destruct c as [t d f g | | | t w n]; [| destruct Fi.. | eapply Lab; reflexivity]. destruct Cu as (st & st' & Gi & Ev & Sp).
  assert (Nret : (t <> IMMC_INST_JMP) -> i_ret q = None).
  { intros NJ. destruct (in_ret _ _ _ I) as [R | (_ & [L | J])]; [exact R | lia |]. rewrite LT in J. congruence. }
  assert (NX : forall q2 m2, istep call lab frame params (IMMC_INST t d f g) q = INext q2 -> runs lab cp m (Next m2) -> moved frame q m q2 m2 st' -> (forall r, goes_on (IMMC_INST t d f g) = true /\ live fn (3 + k) r -> has place q2 m2 r) ->
     ((S k < length prm)%nat -> forall i a, argument_reg i = Some a -> rget (regs m2) a = rget (regs m) a) ->
     (i_ret q2 = None \/ (exists s x, i_ret q2 = Some (s, x) /\ low s (rget (regs m2) RAX) = x) /\ nth_error (prm ++ body) (S k) = Some (IMMC_INST IMMC_INST_JMP (Some (IMMC_OPERAND_LABEL stop)) None None)) ->
     exists k' m', pc = (2 + k')%nat /\ (k' <= S (length (prm ++ body)))%nat /\ own_steps lab F (pos k, m) (pos k', m') /\ inv k' q' m').
  { intros q2 m2 Si Ru [M1 M2 M3 M4 M5 M6] Ha Ar Re. rewrite Si in H. injection H as <- <-. exists (S k), m2. split; [lia |]. split; [lia |]. split; [rewrite PS, <- LA; eapply runs_steps; [exact EA | exact Ru] |].
    destruct I as [I1 I2 I3 I4 I5 I6 I7 I8 I9]. constructor; auto.
    - intros r J. rewrite M2 by exact J. now apply I2.
    - destruct M3 as [M3 | M3]; [rewrite M3; exact I3 | right; lia].
    - intros a P N. rewrite M4; [now apply I4 | exact P | now apply not_world].
    - congruence.
    - congruence.
    - intros r L. apply Ha. split; [| exact L]. eapply istep_on, Si.
    - intros L i a J. rewrite (Ar L _ _ J). eapply I8; [lia | exact J].
    - destruct Re as [Re | (Re & J)]; [now left | right; split; [exact Re | now right]]. }
  destruct (Nat.lt_ge_cases k (length prm)) as [Lp | Lp].
  - (* a parameter *)
    rewrite nth_error_app1 in LT by exact Lp. destruct (arg_shape _ _ LT) as (off & s & r & Ec & Ar). injection Ec as -> -> -> ->. cbn [renamed renamed_operand] in Gi.
    destruct (istep call lab frame params (IMMC_INST IMMC_INST_LDARG (Some (IMMC_OPERAND_MEM off)) (Some (IMMC_OPERAND_ARG s r)) None) q) as [q2 | n q2 | q2 |] eqn:Si; [| apply istep_goto in Si; discriminate Si | discriminate H | discriminate H].
    destruct (ldarg_sim place call lab frame params (fun _ => False) (fun _ => False) st cp st' q m q2 (fun _ N => match N with end) (in_agree _ _ _ I) off s r) as ((m2 & Ru & Mv & _ & Rt) & Ka); [| exact Ar | intros x [] | exact Gi | exact Si |].
    { intros i z x a N P J. rewrite (in_args _ _ _ I ltac:(lia) _ _ J). eapply Args; eassumption. }
    eapply NX; [reflexivity | exact Ru | exact Mv | intros x (_ & L); destruct (none_live (S k) x ltac:(lia) L) | intros _ i a J; exact (Ka _ Ru _ _ J) | left; rewrite Rt; apply Nret; discriminate].
  - assert (Ib : In (IMMC_INST t d f g) body) by (rewrite nth_error_app2 in LT by exact Lp; eapply nth_error_In, LT). assert (La : loads_argument (IMMC_INST t d f g) = false) by (rewrite Forall_forall in Lbody; now apply Lbody).
    specialize (Sp (fun w W => Wri _ _ Ib W)). destruct (returns_value (IMMC_INST t d f g)) eqn:Rv.
    + destruct t; try discriminate Rv. unfold fits in Fi. cbn [renamed] in Fi, Gi. destruct d as [d |]; [rewrite (renamed_some place) in Fi; destruct Fi |]. destruct f as [f |]; [| destruct Fi]. destruct g as [g |]; [rewrite !(renamed_some place) in Fi; destruct Fi |].
      change (renamed_operand place None) with (@None ope) in Fi, Gi. rewrite (renamed_some place) in Fi, Gi. cbv beta iota in Fi. destruct Fi as (F1 & F2).
      destruct (istep call lab frame params (IMMC_INST IMMC_INST_STRET None (Some f) None) q) as [q2 | n q2 | q2 |] eqn:Si; [| apply istep_goto in Si; discriminate Si | discriminate H | discriminate H].
      destruct (stret_sim place call lab frame params _ _ _ _ _ _ _ _ _ (in_live _ _ _ I) (in_agree _ _ _ I) f Sp F1 F2 Gi Si) as (m2 & Ru & Mv & Ha & Re).
      eapply NX; [reflexivity | exact Ru | exact Mv | exact Ha | intros; lia |]. right. split; [exact Re |]. rewrite nth_error_app2 in LT |- * by lia. destruct (nth_error_split _ _ LT) as (b1 & b2 & Eb & Lb). destruct (Ret _ _ _ Eb eq_refl) as (b3 & ->). rewrite Eb. rewrite nth_error_app2 by lia. replace (S k - length prm - length b1)%nat with 1%nat by lia. reflexivity.
    + assert (X := inst_sim place call lab frame params _ _ _ _ _ _ _ _ _ _ _ _ (in_agree _ _ _ I) (in_live _ _ _ I) Sp Fi La Rv Gi).
      destruct (istep call lab frame params (IMMC_INST t d f g) q) as [q2 | n q2 | q2 |] eqn:Si; [| | discriminate H | discriminate H].
      * destruct X as (m2 & Ru & Mv & Ha & Re). eapply NX; [reflexivity | exact Ru | exact Mv | exact Ha | intros; lia |]. left. rewrite Re. apply Nret. intros ->. apply istep_on in Si. discriminate Si.
      * destruct X as (m2 & Ru & [M1 M2 M3 M4 M5 M6] & Ha & Re & Gt & Jm). destruct (label_at n fn) as [p' |] eqn:Ln; [| discriminate H]. injection H as <- <-.
        assert (No : n <> own) by (intros ->; exact (Own _ Ib Gt)). destruct (target n p' eq_refl No Ln) as (k' & t' & w' & -> & Lk2 & Et). exists k', m2. split; [reflexivity |]. split; [lia |]. split; [rewrite <- LA; eapply runs_goto; [exact Et | exact EA | exact Ru] |].
        destruct I as [I1 I2 I3 I4 I5 I6 I7 I8 I9]. constructor; auto.
        -- intros r J. rewrite M2 by exact J. now apply I2.
        -- destruct M3 as [M3 | M3]; [rewrite M3; exact I3 | right; lia].
        -- intros a P N. rewrite M4; [now apply I4 | exact P | now apply not_world].
        -- congruence.
        -- congruence.
        -- intros r L. apply Ha. eapply live_later; [exact Ef | | exists (IMMC_INST t d f g); split; [exact Ef | right; exists n; split; [exact Gt | exact Ln]] | exact L]. cbn in Gt |- *. destruct t; try discriminate Gt; destruct d as [[] |]; try discriminate Gt; discriminate.
        -- intros L i a J. lia.
        -- destruct I9 as [I9 | (I9 & J)]; [left; congruence |]. right. destruct J as [L | J]; [lia |]. rewrite LT in J. injection J as -> -> -> ->. rewrite (Jm eq_refl), Re. split; [exact I9 |]. cbn in Gt. injection Gt as <-. rewrite stop_at in Ln. injection Ln as Ln. left. lia.
Qed.
End Run.
