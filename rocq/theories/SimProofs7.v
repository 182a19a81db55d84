(** Proofs for C48: functions without calls, from intermediate code to machine code *)
From Coq Require Import Lia ZifyBool.
From Verif Require Import Base SrtModel ResolverModel ElabProofs ImmcModel ImmcgenModel LabelSpec LabelProofs3 RegallocModel X64Model X64genModel X64Decode OpSpec CSem ImmcSem IsaProofs IsaMemProofs X64genProofs RegSpec RegProofs2 RegProofs6 OrderProofs OrderSpec CallSpec CallProofs7 CallProofs8 CallProofs9 MarkSpec SimSpec SimProofs SimProofs2 SimProofs3 SimProofs4 SimProofs5 SimProofs6 X64Isa.
Local Open Scope Z_scope.

Lemma firstn_in {T} (x : T) : forall k l, In x (firstn k l) -> In x l.
Proof. induction k as [| k IH]; intros [| y l] H; cbn in H; try destruct H as [H | H]; try (destruct H; fail); [now left | right; now apply IH]. Qed.
Lemma imove_local call lab frame params A fn B p q : NoDup (labels (A ++ fn ++ B)) -> orderly fn -> (p < length fn)%nat ->
  imove call lab frame params (A ++ fn ++ B) (length A + p) q = match imove call lab frame params fn p q with IAt p' q' => IAt (length A + p') q' | r => r end.
Proof.
  intros ND Or Lp. unfold imove. rewrite nth_error_app2 by lia. replace (length A + p - length A)%nat with p by lia. rewrite nth_error_app1 by exact Lp. destruct (nth_error fn p) as [c |] eqn:E; [| reflexivity].
  destruct (istep call lab frame params c q) as [q' | n q' | q' |] eqn:Si; try reflexivity; [f_equal; lia |]. apply SimProofs5.istep_goto in Si. destruct (label_at n fn) as [p' |] eqn:L; [| destruct (or_local _ Or _ _ (nth_error_In _ _ E) Si L)]. now rewrite (label_local _ _ _ _ _ ND L).
Qed.
Lemma fits_on after after' c c' call lab frame params q q' : fits after after' c c' -> (exists place, c' = renamed place c) -> istep call lab frame params c q <> IDone q'.
Proof.
  intros Fi (place & ->) H. destruct c as [t d f g | | |]; try discriminate H. destruct t; try (destruct d as [[] |], f as [[] |], g as [[] |]; destruct Fi; fail);
    destruct d as [d |], f as [f |], g as [g |]; cbn [istep] in H; unfold put_result in H; try discriminate H; repeat (match type of H with context [match ?x with _ => _ end] => destruct x end; try discriminate H).
Qed.
Lemma holds_same M M' a n v : holds M a n v -> (forall b, a <= b < a + n -> peek M' b = peek M b) -> holds M' a n v.
Proof. intros (R & H) E. split; [exact R |]. intros i I. rewrite E by lia. now apply H. Qed.

Theorem leaf_runs a s C n code lives X A fn B : resolve a = Ok s -> plain_names s -> immcgen s = Ok C -> pointers_last s = true -> few_arguments s -> allocate_regs n C = Ok (code, lives) -> x64gen code lives = Ok X -> C = A ++ fn ++ B -> is_function fn B ->
  leaf fn (firstn (length fn) (skipn (length A) code)) ->
  exists F size saved bodyX, x64_function X F /\ function_code F size saved bodyX
  /\ (exists v w nm, hd_error fn = Some (IMMC_LABEL IMMC_LABEL_FUNCTION v nm) /\ hd_error F = Some (X64_LABEL X64_LABEL_FUNCTION w nm))
  /\ forall call lab frame args q q' m, entered (w_mem (i_world q)) args frame size saved m -> i_ret q = None ->
     (exists j, reaches call lab frame args C (length A) q j q' /\ imove call lab frame args C j q' = IEnd q') ->
     exists p m', own_steps lab F (0%nat, m) (p, m') /\ returning lab F p m' /\ left (w_mem (i_world q)) (w_mem (i_world q')) (i_ret q') size saved m m'.
Proof.
  intros Hr Pn Hi Pl Fa Al Xg EC IF Lf. destruct (compiled_pieces _ _ _ _ _ _ _ _ _ _ Hr Pn Hi Pl Fa Al Xg EC IF) as (Or & ND & place & F & v & own & sz & body0 & w & size & saved & ps & Ec & XF & Efn & EF & _ & Sv & Lps & Cuts).
  rewrite Ec in Lf. destruct Lf as (v1 & own1 & sz1 & prm & body & v' & stop & Efn1 & L1 & L2 & L3 & L4 & L5 & L6).
  assert (E0 := Efn). rewrite Efn1 in E0. injection E0 as -> -> -> E0. assert (Eb : body0 = prm ++ body ++ [IMMC_LABEL IMMC_LABEL_NORMAL v' stop]).
  { apply (app_inv_tail [IMMC_INST IMMC_INST_LEAVE None sz None]). rewrite <- E0, <- !app_assoc. reflexivity. }
  clear E0 Efn. subst body0. destruct (program_labels _ _ _ Hr Pn Hi) as [NDC _]. exists F, size, saved, (concat ps). split; [exact XF |]. split; [exists w, own; exact EF |]. split; [exists v, w, own; rewrite Efn1, EF; split; reflexivity |].
  intros call lab frame args q q' m [N1 N2 N3 N4 N5 N6 N7 N8 N9] Rq (j & Go & En).
  assert (NSP : ~ In SP_REG_ID saved). { intros I. rewrite Sv in I. apply firstn_in in I. cbn in I. intuition discriminate. }
  assert (NDS : NoDup saved). { rewrite Sv. apply NoDup_firstn. repeat constructor; cbn; intuition discriminate. }
  destruct (prologue_goes lab size saved m ltac:(lia) NSP N6 N8) as (m1 & R1 & G1 & B1 & K1). destruct (prologue_run _ _ _ _ _ R1 ltac:(lia) NSP) as (P1 & P2 & P3 & P4 & P5 & _).
  assert (LFn : length fn = (4 + length (prm ++ body))%nat) by (rewrite Efn1; cbn [length]; rewrite !app_length; cbn [length]; lia).
  assert (Mv : forall p q, (p < length fn)%nat -> imove call lab frame args C (length A + p) q = match imove call lab frame args fn p q with IAt p' q' => IAt (length A + p') q' | r => r end).
  { intros p0 q0 L. rewrite EC. apply imove_local; [now rewrite <- EC | exact Or | exact L]. }
  set (pre := X64_LABEL X64_LABEL_FUNCTION w own :: prologue size saved) in *.
  assert (EF' : F = pre ++ concat ps ++ epilogue size saved) by (rewrite EF; reflexivity).
  assert (Fits : forall p c, nth_error (prm ++ body) p = Some c -> fits (skipn (3 + p) fn) (List.map (renamed place) (skipn (3 + p) fn)) c (renamed place c)).
  { intros p0 c E. rewrite <- skipn_map. apply (L6 p0); [exact E |]. rewrite nth_error_map, Efn1. cbn [Nat.add nth_error]. rewrite app_assoc, nth_error_app1 by (apply nth_error_Some; congruence). rewrite E. reflexivity. }
  set (I := inv place frame fn prm body stop (Z.of_nat (length saved)) q m1).
  assert (Ag : agree frame q m1).
  { constructor.
    - rewrite P2, N1. lia.
    - destruct N4 as (S1 & S2). split; [intros b z Ab; eapply accessible_regions; [exact G1 | now apply S1] |]. intros b Ab. rewrite K1; [now apply S2 | apply Ab | intros Sa; exact (N9 _ Sa Ab)].
    - now apply B1. }
  assert (Args : forall k s x a, nth_error args (Z.to_nat k) = Some (s, x) -> 0 <= k -> argument_reg k = Some a -> low s (rget (regs m1) a) = low s x).
  { intros k z x r E P Er. rewrite P3; [now apply (N3 k) | |]; intros ->; destruct k as [| k | k]; try discriminate Er; do 3 (destruct k as [k | k |]; try discriminate Er). }
  assert (I0 : I 0%nat q m1) by (exact (inv_start place lab frame args fn v own sz prm body v' stop (epilogue size saved) ps (Z.of_nat (length saved)) Efn1 L1 L3 L4 L5 Fits Or Lps Cuts q m1 Args q Ag eq_refl Rq)).
  (* the body *)
  assert (Run : forall pc q0 j q', reaches call lab frame args C pc q0 j q' -> forall k m0, pc = (length A + (2 + k))%nat -> (k <= S (length (prm ++ body)))%nat -> I k q0 m0 -> imove call lab frame args C j q' = IEnd q' ->
    exists m2, own_steps lab F (pos pre ps k, m0) (pos pre ps (S (length (prm ++ body))), m2) /\ I (S (length (prm ++ body))) q' m2).
  { intros pc q0 j0 q0' G. induction G as [pc q0 | pc q0 pc1 q1 pc2 q2 M G IH]; intros k m0 Ep Lk Ik Ie; subst pc.
    - exists m0. destruct (Nat.eq_dec k (S (length (prm ++ body)))) as [-> | Nk]; [split; [apply own_refl | exact Ik] |]. exfalso. rewrite Mv in Ie by lia. destruct (imove call lab frame args fn (2 + k) q0) as [| q3 |] eqn:Im; try discriminate Ie. unfold imove in Im.
      destruct (nth_error fn (2 + k)) as [c |] eqn:E; [| discriminate Im]. destruct (istep call lab frame args c q0) as [| nm ? | q4 |] eqn:Si; try discriminate Im; [destruct (label_at nm fn); discriminate Im |].
      rewrite Efn1 in E. cbn [Nat.add nth_error] in E. rewrite app_assoc in E. destruct (Nat.eq_dec k (length (prm ++ body))) as [-> | Nk2]; [rewrite nth_error_app2, Nat.sub_diag in E by lia; injection E as <-; discriminate Si |].
      rewrite nth_error_app1 in E by lia. eapply fits_on; [exact (Fits _ _ E) | eauto | exact Si].
    - rewrite Mv in M by lia. destruct (imove call lab frame args fn (2 + k) q0) as [p' q3 | |] eqn:Im; try discriminate M. injection M as <- <-.
      destruct (Nat.eq_dec k (S (length (prm ++ body)))) as [-> | Nk].
      { exfalso. unfold imove in Im. assert (El : nth_error fn (2 + S (length (prm ++ body))) = Some (IMMC_INST IMMC_INST_LEAVE None sz None)).
        { rewrite Efn1. change (nth_error (prm ++ body ++ [IMMC_LABEL IMMC_LABEL_NORMAL v' stop; IMMC_INST IMMC_INST_LEAVE None sz None]) (S (length (prm ++ body))) = Some (IMMC_INST IMMC_INST_LEAVE None sz None)). rewrite app_assoc, nth_error_app2 by lia. replace (S (length (prm ++ body)) - length (prm ++ body))%nat with 1%nat by lia. reflexivity. }
        rewrite El in Im. destruct (istep call lab frame args (IMMC_INST IMMC_INST_LEAVE None sz None) q0) as [q5 | nm q5 | q5 |] eqn:Si; try discriminate Im; [apply istep_on in Si; discriminate Si | apply SimProofs5.istep_goto in Si; discriminate Si]. }
      destruct (one_step place call lab frame args fn v own sz prm body v' stop F pre (epilogue size saved) ps (Z.of_nat (length saved)) Efn1 L1 L2 L3 L4 L5 Fits Or ND EF' Lps Cuts q m1 Args k q0 m0 p' q3 Ik ltac:(lia) Im) as (k' & m' & -> & Lk' & St & Ik').
      destruct (IH k' m' eq_refl Lk' Ik' Ie) as (m2 & St2 & I2). exists m2. split; [eapply steps_trans; [exact St | exact St2] | exact I2]. }
  (* the first two instructions *)
  assert (exists j', reaches call lab frame args C (length A + (2 + 0)) q j' q' /\ imove call lab frame args C j' q' = IEnd q') as (j' & Go2 & En2).
  { assert (M0 : imove call lab frame args C (length A) q = IAt (S (length A)) q). { rewrite <- (Nat.add_0_r (length A)) at 1. rewrite Mv by lia. rewrite Efn1. cbn. f_equal. lia. }
    assert (M1 : forall r, imove call lab frame args C (S (length A)) q = r -> r = IWrong \/ r = IAt (length A + (2 + 0)) q). { intros r <-. replace (S (length A)) with (length A + 1)%nat by lia. rewrite Mv by lia. rewrite Efn1. unfold imove. cbn [nth_error]. destruct sz as [o |]; [right; cbn; f_equal; lia | left; reflexivity]. }
    inversion Go as [x1 x2 | x1 x2 pc1 q1 x5 x6 Ma Ga]; subst; [rewrite M0 in En; discriminate En |]. rewrite M0 in Ma. injection Ma as <- <-. inversion Ga as [x1 x2 | x1 x2 pc1 q1 x5 x6 Mb Gb]; subst; [destruct (M1 _ En) as [Y | Y]; discriminate Y |]. destruct (M1 _ Mb) as [Y | Y]; [discriminate Y |]. injection Y as -> ->. eauto. }
  destruct (Run _ _ _ _ Go2 0%nat m1 eq_refl ltac:(lia) I0 En2) as (m2 & St & [J1 J2 J3 J4 J5 J6 J7 J8 J9]).
  (* the end *)
  assert (Sa : forall b, saved_area (rget (regs m) RSP) size saved b -> peek (mem m2) b = peek (mem m1) b).
  { intros b Sb. apply J4; [| now apply N9]. unfold saved_area, frame_depth in *. destruct (Nat.odd _); lia. }
  destruct (epilogue_goes lab size saved (rget (regs m) RSP) (fun r => low S8 (saved_value m r)) (low S8 (rget (regs m) RBP)) m2) as (l & m3 & El & R3 & M3 & Q1 & Q2 & Q3 & Q4); try assumption.
  { rewrite J2 by (cbn; tauto). exact P1. }
  { apply (ag_bytes _ _ _ J1). }
  { destruct N8 as (A1 & A2). split; [eapply accessible_regions; [| exact A1]; congruence |]. intros i Hi2. eapply accessible_regions; [| exact (A2 _ Hi2)]. congruence. }
  { eapply holds_same; [exact P4 |]. intros b Hb. apply Sa. left. lia. }
  { intros i r Er. assert (Li : (i < length saved)%nat) by (apply nth_error_Some; congruence). eapply holds_same; [exact (P5 _ _ Er) |]. intros b Hb. apply Sa. right. lia. }
  assert (Pend : pos pre ps (S (length (prm ++ body))) = length (pre ++ concat ps)).
  { unfold pos. rewrite (app_length pre), firstn_all2; [reflexivity |]. rewrite Lps, app_assoc, (app_length (prm ++ body)). cbn. lia. }
  assert (Pst : pos pre ps 0 = length pre) by (unfold pos; cbn; lia).
  assert (EF2 : F = (pre ++ concat ps) ++ l ++ [X64_INST X64_INST_RET None None]) by (rewrite EF', El, <- !app_assoc; reflexivity).
  exists (length (pre ++ concat ps) + length l)%nat, m3. split; [| split].
  - eapply own_more; [eapply own_label; rewrite EF; reflexivity |]. eapply steps_trans; [exact (runs_steps lab F (prologue size saved) [X64_LABEL X64_LABEL_FUNCTION w own] (concat ps ++ epilogue size saved) m m1 EF R1) |].
    cbn [length]. change (1 + length (prologue size saved))%nat with (length pre). rewrite <- Pst. eapply steps_trans; [exact St |]. rewrite Pend. eapply runs_steps; [exact EF2 | exact R3].
  - exists X64_INST_RET, None, None, Ret. split; [| split; reflexivity]. rewrite EF2, app_assoc, <- app_length. apply nth_mid.
  - constructor.
    + assert (LW : forall x, low S8 (rget (regs m) x) = rget (regs m) x) by (intros x; apply low_small, N2).
      assert (H : forall r, In r [RBX; R12; R13; R14; R15] -> rget (regs m3) r = rget (regs m) r).
      { intros r Ir. assert (X1 : r <> RSP) by (intros ->; cbn in Ir; intuition discriminate). assert (X2 : r <> RBP) by (intros ->; cbn in Ir; intuition discriminate).
        destruct (in_dec (fun a b : reg => ltac:(decide equality) : {a = b} + {a <> b}) r (List.map reg_of saved)) as [Im | Im].
        - apply in_map_iff in Im as (x & <- & Im). assert (NB : x <> BP_REG_ID) by (intros ->; now apply X2). rewrite (Q3 x Im NB). unfold saved_value. destruct (xreg_beq x BP_REG_ID) eqn:Xb; [apply xreg_beq_true in Xb; contradiction | apply LW].
        - rewrite Q4 by assumption. rewrite <- (P3 r X1 X2). destruct Ir as [<- | Ir]; [| apply J2; cbn in Ir |- *; tauto].
          destruct J3 as [J3 | J3]; [exact J3 |]. exfalso. apply Im. destruct saved as [| x saved0]; [cbn in J3; lia |]. cbn [length firstn CALLEE_SAVED_REG_IDS] in Sv. injection Sv as -> _. now left. }
      intros r Ir. cbn in Ir. destruct Ir as [<- | [<- | [<- | Ir]]]; [apply H; now left | rewrite Q2; apply LW | exact Q1 | apply H; cbn; tauto].
    + rewrite M3. exact (ag_seen _ _ _ J1).
    + intros b P0 Nb Sb. rewrite M3, J4 by assumption. now apply K1.
    + intros z x Ez. destruct J9 as [J9 | ((z' & x' & Ez' & Lx) & _)]; [congruence |]. rewrite Ez in Ez'. injection Ez' as <- <-. rewrite Q4; [exact Lx | discriminate | discriminate |]. rewrite Sv. intros Ix. apply in_map_iff in Ix as (y & Ey & Iy). apply firstn_in in Iy. cbn in Iy. intuition (subst; discriminate).
Qed.
