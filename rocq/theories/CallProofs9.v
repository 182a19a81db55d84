(** C44: the callee-saved registers are restored; C34: the arguments in the called function *)
From Coq Require Import Lia ZifyBool.
From Verif Require Import Base ElabProofs SrtModel ResolverModel ImmcModel ImmcgenModel RegallocModel X64Model X64Decode X64genModel OpSpec IsaProofs IsaMemProofs X64genProofs LabelSpec CallSpec CallProofs CallProofs2 CallProofs3 CallProofs4 CallProofs5 CallProofs6 CallProofs7 CallProofs8 X64Isa.
Local Open Scope Z_scope.
Local Open Scope bool_scope.
Ltac splits := repeat match goal with |- _ /\ _ => split end.

Definition saved_value (m0 : state) (r : xreg) : Z := if xreg_beq r BP_REG_ID then rget (regs m0) RSP - 8 else rget (regs m0) (reg_of r).
Lemma prologue_run e size saved m0 m1 : runs e (prologue size saved) m0 (Next m1) -> frame_depth size saved <= rget (regs m0) RSP < 2 ^ 64 -> ~ In SP_REG_ID saved ->
  rget (regs m1) RSP = rget (regs m0) RSP - frame_depth size saved /\ rget (regs m1) RBP = rget (regs m0) RSP - 8
  /\ (forall q, q <> RSP -> q <> RBP -> rget (regs m1) q = rget (regs m0) q)
  /\ holds (mem m1) (rget (regs m0) RSP - 8) 8 (low S8 (rget (regs m0) RBP))
  /\ (forall j r, nth_error saved j = Some r -> holds (mem m1) (rget (regs m0) RSP - 8 - Z.max 0 size - 8 * Z.of_nat (S j)) 8 (low S8 (saved_value m0 r)))
  /\ (forall a, rget (regs m0) RSP <= a -> peek (mem m1) a = peek (mem m0) a) /\ (forall a n, accessible (mem m0) a n -> accessible (mem m1) a n).
Proof.
  intros R B NS. unfold frame_depth in *. set (S0 := rget (regs m0) RSP) in *. unfold prologue in R. cbn [app] in R. apply runs_cons in R as (ma & R1 & R). apply runs_cons in R as (mb & R2 & R). apply runs_split in R as (mc & R3 & R). apply runs_split in R as (md & R4 & R5).
  destruct (push_facts _ _ _ _ R1 ltac:(unfold S0 in B; destruct (Nat.odd (length saved)); lia)) as (A1 & A2 & A3 & A4 & A5). fold S0 in A1, A3, A4.
  apply runs_inst in R2 as (i & D & X). cbn in D. injection D as <-. cbn [exec read write next] in X. assert (X' : Next (set_regs ma (X64Isa.put (regs ma) S8 RBP (get (regs ma) S8 RSP))) = Next mb) by exact X. assert (Eb : mb = set_regs ma (X64Isa.put (regs ma) S8 RBP (get (regs ma) S8 RSP))) by congruence. clear X X'.
  assert (B1 : rget (regs mb) RSP = S0 - 8) by (subst mb; cbn [regs set_regs]; rewrite rget_put_other by discriminate; exact A1).
  assert (B2 : rget (regs mb) RBP = S0 - 8). { subst mb. cbn [regs set_regs]. rewrite rget_put8. unfold get. rewrite low_low, A1. apply low_small. change (2 ^ nbits S8) with (2 ^ 64). destruct (Nat.odd (length saved)); lia. }
  assert (B3 : forall q, q <> RSP -> q <> RBP -> rget (regs mb) q = rget (regs m0) q) by (intros q Q1 Q2; subst mb; cbn [regs set_regs]; rewrite rget_put_other by exact Q2; now apply A2).
  assert (B4 : mem mb = mem ma) by (subst mb; reflexivity). clear Eb R1.
  assert (C : rget (regs mc) RSP = S0 - 8 - Z.max 0 size /\ (forall q, q <> RSP -> rget (regs mc) q = rget (regs mb) q) /\ mem mc = mem mb).
  { destruct (size >? 0) eqn:G; [| apply runs_nil in R3; subst mc; splits; auto; lia]. destruct (shift_facts _ _ _ _ _ (or_introl eq_refl) R3) as (C1 & C2 & C3). splits; auto. rewrite C1, B1. rewrite Z.max_r by lia. apply low_small. change (2 ^ nbits S8) with (2 ^ 64). destruct (Nat.odd (length saved)); lia. }
  destruct C as (C1 & C2 & C3). clear R3.
  destruct (pushes_run _ _ _ _ R4) as (D1 & D2 & D3 & D4 & D5); [rewrite C1; destruct (Nat.odd (length saved)); lia | exact NS |]. rewrite C1 in D1, D3, D4.
  assert (E : rget (regs m1) RSP = S0 - (8 + Z.max 0 size + 8 * Z.of_nat (length saved) + (if Nat.odd (length saved) then 8 else 0)) /\ (forall q, q <> RSP -> rget (regs m1) q = rget (regs md) q) /\ mem m1 = mem md).
  { destruct (Nat.odd (length saved)) eqn:G; [| apply runs_nil in R5; subst m1; splits; auto; lia]. destruct (shift_facts _ _ _ _ _ (or_introl eq_refl) R5) as (C1' & C2' & C3'). splits; auto. rewrite C1', D1. cbn [Z.of_nat]. rewrite low_small; [lia |]. change (2 ^ nbits S8) with (2 ^ 64). lia. }
  destruct E as (E1 & E2 & E3). rewrite !E3. clear R5 R4. splits.
  - exact E1.
  - rewrite E2, D2, C2, B2 by discriminate. reflexivity.
  - intros q Q1 Q2. rewrite E2, D2, C2, B3; auto.
  - eapply holds_agree; [exact A3 |]. intros i I. rewrite D4, C3, B4; [reflexivity | destruct (Nat.odd (length saved)); lia | lia].
  - intros j r J. specialize (D3 _ _ J). rewrite C2 in D3 by (intros Q; apply (reg_of_inj r SP_REG_ID) in Q; subst r; apply NS; eapply nth_error_In, J). unfold saved_value. destruct (xreg_beq r BP_REG_ID) eqn:Q.
    + apply xreg_beq_true in Q. subst r. cbn [reg_of] in D3. rewrite B2 in D3. exact D3.
    + rewrite B3 in D3; [exact D3 | intros Q'; apply (reg_of_inj r SP_REG_ID) in Q'; subst r; apply NS; eapply nth_error_In, J | intros Q'; apply (reg_of_inj r BP_REG_ID) in Q'; subst r; cbn in Q; discriminate Q].
  - intros a L. assert (P : 0 <= a) by (destruct (Nat.odd (length saved)); lia). rewrite D4 by lia. rewrite C3, B4. apply A4; lia.
  - intros a n AC. apply D5. rewrite C3, B4. now apply A5.
Qed.
Lemma nth_rev {T} (l : list T) j : (j < length l)%nat -> nth_error (rev l) j = nth_error l (length l - S j).
Proof.
  intros H. destruct l as [| x l]; [cbn in H; lia |]. rewrite (nth_error_nth' _ x) by (rewrite rev_length; exact H). rewrite (nth_error_nth' _ x) by lia. f_equal. now apply rev_nth.
Qed.
Lemma epilogue_run e size saved l S0 (old : xreg -> Z) bp m2 m : epilogue size saved = l ++ [X64_INST X64_INST_RET None None] -> runs e l m2 (Next m) -> rget (regs m2) RSP = S0 - frame_depth size saved -> frame_depth size saved <= S0 < 2 ^ 64 - 8 -> ~ In SP_REG_ID saved -> NoDup saved ->
  holds (mem m2) (S0 - 8) 8 bp -> (forall j r, nth_error saved j = Some r -> holds (mem m2) (S0 - 8 - Z.max 0 size - 8 * Z.of_nat (S j)) 8 (old r)) ->
  rget (regs m) RBP = bp /\ (forall r, In r saved -> r <> BP_REG_ID -> rget (regs m) (reg_of r) = old r).
Proof.
  intros EP R SP B NS ND HB HS. unfold epilogue in EP. unfold frame_depth in *.
  assert (EL : l = (if Nat.odd (length saved) then [X64_INST X64_INST_ADDX (number 8) (quad SP_REG_ID)] else []) ++ List.map (fun r => X64_INST X64_INST_POPX None (quad r)) (rev saved) ++ (if size >? 0 then [X64_INST X64_INST_ADDX (number size) (quad SP_REG_ID)] else []) ++ [X64_INST X64_INST_POPX None (quad BP_REG_ID)]).
  { apply (app_inv_tail [X64_INST X64_INST_RET None None]). rewrite <- EP. rewrite <- !app_assoc. reflexivity. }
  subst l. apply runs_split in R as (ma & R1 & R). apply runs_split in R as (mb & R2 & R). apply runs_split in R as (mc & R3 & R4).
  assert (A : rget (regs ma) RSP = S0 - 8 - Z.max 0 size - 8 * Z.of_nat (length saved) /\ mem ma = mem m2).
  { destruct (Nat.odd (length saved)) eqn:G; [| apply runs_nil in R1; subst ma; split; auto; lia]. destruct (shift_facts _ _ _ _ _ (or_intror eq_refl) R1) as (C1 & C2 & C3). split; auto. rewrite C1, SP. cbn [Z.of_nat]. rewrite low_small; [lia |]. change (2 ^ nbits S8) with (2 ^ 64). lia. }
  destruct A as (A1 & A2). clear R1 SP.
  destruct (pops_back e (rev saved) (rev (List.map old saved)) _ _ R2) as (P1 & P2 & P3 & P4).
  { rewrite A1. destruct (Nat.odd (length saved)); lia. }
  { rewrite A1, rev_length. lia. }
  { rewrite <- in_rev. exact NS. }
  { now apply NoDup_rev. }
  { now rewrite !rev_length, map_length. }
  { intros j v J. assert (LJ : (j < length saved)%nat) by (rewrite <- (map_length old), <- rev_length; apply nth_error_Some; rewrite J; discriminate). rewrite nth_rev in J by (now rewrite map_length). rewrite map_length, nth_error_map in J. destruct (nth_error saved (length saved - S j)) as [r |] eqn:RJ; [| discriminate J]. injection J as <-.
    rewrite A1, A2. replace (S0 - 8 - Z.max 0 size - 8 * Z.of_nat (length saved) + 8 * Z.of_nat j) with (S0 - 8 - Z.max 0 size - 8 * Z.of_nat (S (length saved - S j))) by lia. now apply HS. }
  rewrite A1, rev_length in P1. clear R2.
  assert (C : rget (regs mc) RSP = S0 - 8 /\ (forall q, q <> RSP -> rget (regs mc) q = rget (regs mb) q) /\ mem mc = mem mb).
  { destruct (size >? 0) eqn:G; [| apply runs_nil in R3; subst mc; splits; auto; lia]. destruct (shift_facts _ _ _ _ _ (or_intror eq_refl) R3) as (C1 & C2 & C3). splits; auto. rewrite C1, P1. rewrite Z.max_r by lia. rewrite low_small; [lia |]. change (2 ^ nbits S8) with (2 ^ 64). destruct (Nat.odd (length saved)); lia. }
  destruct C as (C1 & C2 & C3). clear R3.
  destruct (pop_facts _ _ _ _ bp R4) as (D1 & D2 & D3 & D4); [rewrite C1; destruct (Nat.odd (length saved)); lia | discriminate | rewrite C1, C3, P2, A2; exact HB |]. split; [exact D2 |].
  intros r I NB. assert (NR : reg_of r <> RSP) by (intros Q; apply (reg_of_inj r SP_REG_ID) in Q; subst r; contradiction).
  rewrite D3, C2; [| exact NR | exact NR | intros Q; apply (reg_of_inj r BP_REG_ID) in Q; contradiction]. apply In_nth_error in I as (j & J). assert (LJ : (j < length saved)%nat) by (apply nth_error_Some; rewrite J; discriminate).
  apply (P3 (length saved - S j)%nat); (rewrite nth_rev; rewrite ?map_length; [| lia]); replace (length saved - S (length saved - S j))%nat with j by lia; [exact J | now rewrite nth_error_map, J].
Qed.
(** where a function that has been entered with the stack pointer [S0] keeps the caller's registers *)
Theorem callee_saved_restored k F : framed k F -> NoDup (names_of F) -> exists size saved body, function_code F size saved body
  /\ forall e m0 p m, (forall q, 0 <= rget (regs m0) q < 2 ^ 64) -> frame_depth size saved <= rget (regs m0) RSP < 2 ^ 64 - 8 -> steps e F (0%nat, m0) (p, m) -> returning e F p m ->
  let entry := S (length (prologue size saved)) in
  exists m1 m2, runs e (prologue size saved) m0 (Next m1) /\ steps e F (entry, m1) ((entry + length body)%nat, m2)
    /\ ((forall a, saved_area (rget (regs m0) RSP) size saved a -> peek (mem m2) a = peek (mem m1) a) -> forall q, In q callee_saved -> rget (regs m) q = rget (regs m0) q).
Proof.
  intros FR ND. assert (SD := framed_steady _ _ FR). destruct SD as [SN JL _ RT]. destruct FR as (size & saved & body & l & (v & n & EF) & S16 & SV & K & LVS). exists size, saved, body. split; [exists v, n; exact EF |].
  intros e m0 p m WD FD ST RE entry.
  assert (RD := run_depth e F SN ND JL _ _ ST _ (WD RSP)). cbn [fst snd] in RD. unfold depth at 1 in RD. cbn [firstn] in RD. change (xgrown []) with 0 in RD. rewrite Z.sub_0_r in RD. rewrite low_small in RD by exact (WD RSP). specialize (RD eq_refl).
  destruct (prologue_flat size saved) as (PF & PG). destruct (epilogue_flat size saved (saved_sp _ SV)) as (ep & EE & EPF & EG).
  destruct RE as (t & s0 & d & i & E & D & EX). destruct (exec_returns _ _ _ _ _ _ _ D EX) as [_ RR].
  assert (PP : p = (entry + length body + length ep)%nat).
  { assert (NR : forall c, In c (X64_LABEL X64_LABEL_FUNCTION v n :: prologue size saved ++ body ++ ep) -> xret c = false).
    { intros c [<- | I]; [reflexivity |]. rewrite !in_app_iff in I. destruct I as [I | [I | I]]; [apply (flat_in _ _ PF I) | | apply (flat_in _ _ EPF I)]. assert (CS := cs_stays _ _ _ K). rewrite Forall_forall in CS. apply (CS _ I). }
    rewrite EF, EE in E. replace (X64_LABEL X64_LABEL_FUNCTION v n :: prologue size saved ++ body ++ ep ++ [X64_INST X64_INST_RET None None]) with ((X64_LABEL X64_LABEL_FUNCTION v n :: prologue size saved ++ body ++ ep) ++ [X64_INST X64_INST_RET None None]) in E by (cbn [app]; rewrite <- !app_assoc; reflexivity).
    set (pre := X64_LABEL X64_LABEL_FUNCTION v n :: prologue size saved ++ body ++ ep) in *. assert (LP : length pre = (entry + length body + length ep)%nat) by (subst pre entry; cbn [length]; rewrite !app_length; lia).
    destruct (Nat.lt_ge_cases p (length pre)) as [Lt | Ge]; [rewrite nth_error_app1 in E by assumption; apply nth_error_In in E; apply NR in E; congruence |].
    rewrite nth_error_app2 in E by assumption. destruct (p - length pre)%nat as [| z] eqn:Z0; [lia | destruct z; discriminate E]. }
  assert (exists m1, runs e (prologue size saved) m0 (Next m1) /\ steps e F (entry, m1) (p, m)) as (m1 & R1 & S1).
  { destruct (through_prologue e v n (prologue size saved) _ F m0 _ _ EF PF ST eq_refl) as [X | [(y & m' & X & LE & R) | X]]; [injection X as X _; lia | | exact X]. injection X as X ->. assert (y = length (prologue size saved)) as -> by lia. rewrite firstn_all in R. exists m'. split; [exact R |]. rewrite X. apply steps_refl. }
  set (A := X64_LABEL X64_LABEL_FUNCTION v n :: prologue size saved ++ body). assert (LA : length A = (entry + length body)%nat) by (subst A entry; cbn [length]; rewrite app_length; lia).
  assert (EF2 : F = A ++ ep ++ [X64_INST X64_INST_RET None None]) by (rewrite EF, EE; subst A; cbn [app]; rewrite <- !app_assoc; reflexivity).
  destruct (through_epilogue e A ep F _ _ EF2 EPF S1) as (m2 & y & S2 & Y & LY & R2); [cbn [fst]; lia | cbn [fst]; lia |]. cbn [fst snd] in Y, R2. assert (y = length ep) as -> by lia. rewrite firstn_all in R2.
  exists m1, m2. splits; [exact R1 | rewrite <- LA; exact S2 |]. intros AG q IQ.
  assert (NSP := saved_sp _ SV). assert (FD' : frame_depth size saved <= rget (regs m0) RSP < 2 ^ 64) by lia. destruct (prologue_run _ _ _ _ _ R1 FD' NSP) as (P1 & P2 & P3 & P4 & P5 & _).
  assert (SP2 : rget (regs m2) RSP = rget (regs m0) RSP - frame_depth size saved).
  { assert (Q : rget (regs m1) RSP = low S8 (rget (regs m0) RSP - depth F entry)). { unfold depth. rewrite EF. subst entry. cbn [firstn]. rewrite firstn_app, Nat.sub_diag, firstn_all. cbn [firstn]. rewrite app_nil_r, xgrown_cons, PG. rewrite P1. symmetry. apply low_small. change (2 ^ nbits S8) with (2 ^ 64). clear - FD WD. specialize (WD RSP). cbn [xmove]. assert (0 <= frame_depth size saved) by (unfold frame_depth; destruct (Nat.odd _); lia). lia. }
    assert (Q2 := run_depth e F SN ND JL _ _ S2 _ (WD RSP) Q). cbn [fst snd] in Q2. rewrite Q2. rewrite LA. unfold depth. rewrite EF. replace (entry + length body)%nat with (S (length (prologue size saved ++ body))) by (rewrite app_length; reflexivity). cbn [firstn]. rewrite app_assoc, firstn_app, Nat.sub_diag, firstn_all. cbn [firstn]. rewrite app_nil_r, xgrown_cons, xgrown_app, PG, (cs_grown _ _ _ K).
    replace (grown l) with 0 by (destruct LVS as (G & _); lia). cbn [xmove]. rewrite low_small; [lia |]. change (2 ^ nbits S8) with (2 ^ 64). assert (0 <= frame_depth size saved) by (unfold frame_depth; destruct (Nat.odd _); lia). lia. }
  assert (NDS : NoDup saved) by (rewrite SV; apply NoDup_firstn; repeat constructor; cbn; intuition discriminate).
  destruct (epilogue_run e size saved ep (rget (regs m0) RSP) (fun r => low S8 (saved_value m0 r)) (low S8 (rget (regs m0) RBP)) m2 m EE R2 SP2 ltac:(lia) NSP NDS) as (Q1 & Q2).
  { eapply holds_agree; [exact P4 |]. intros j J. apply AG. left. lia. }
  { intros j r J. eapply holds_agree; [exact (P5 _ _ J) |]. intros a I. apply AG. right. assert (LJ : (j < length saved)%nat) by (apply nth_error_Some; rewrite J; discriminate). lia. }
  assert (LW : forall x, low S8 (rget (regs m0) x) = rget (regs m0) x) by (intros x; apply low_small, WD).
  destruct (reg_eqb q RSP) eqn:QS; [assert (q = RSP) as -> by (destruct q; try discriminate QS; reflexivity); rewrite RD, (RT _ _ E RR), Z.sub_0_r; apply low_small, WD |].
  destruct (reg_eqb q RBP) eqn:QB; [assert (q = RBP) as -> by (destruct q; try discriminate QB; reflexivity); rewrite Q1; apply LW |].
  assert (N1 : q <> RSP) by (intros ->; discriminate QS). assert (N2 : q <> RBP) by (intros ->; discriminate QB).
  destruct (in_dec (fun a b : reg => ltac:(decide equality) : {a = b} + {a <> b}) q (List.map reg_of saved)) as [I | NI].
  - apply in_map_iff in I as (r & <- & I). assert (NB : r <> BP_REG_ID) by (intros ->; apply N2; reflexivity). rewrite (Q2 r I NB). unfold saved_value. destruct (xreg_beq r BP_REG_ID) eqn:X; [apply xreg_beq_true in X; contradiction | apply LW].
  - apply (run_untouched e F _ _ q ST SN IQ N1). intros c I J. rewrite EF in I. destruct I as [<- | I]; [destruct J |]. rewrite EE, !in_app_iff in I. destruct I as [I | [I | [I | [<- | []]]]]; [| | | destruct J].
    + unfold prologue in I. rewrite !in_app_iff in I. destruct I as [[<- | [<- | []]] | [I | [I | I]]]; [cbn in J; tauto | cbn in J; intuition congruence | destruct (size >? 0); [destruct I as [<- | []]; cbn in J; intuition congruence | destruct I] | apply in_map_iff in I as (r & <- & I); cbn in J; tauto | destruct (Nat.odd _); [destruct I as [<- | []]; cbn in J; intuition congruence | destruct I]].
    + apply in_map_iff in J as (r & <- & J). destruct (cs_uses _ _ _ K c r I J) as [-> | UA]; [now apply N1 |]. cbn [In] in UA. destruct UA as [<- | UA]; [cbn in IQ; intuition discriminate |]. apply in_app_iff in UA as [UA | UA]; [| apply NI; now apply in_map]. cbn in UA, IQ. clear - UA IQ. repeat (destruct UA as [<- | UA]; [cbn in IQ; intuition discriminate |]). destruct UA.
    + assert (I2 : In c (epilogue size saved)) by (rewrite EE; apply in_app_iff; auto). unfold epilogue in I2. rewrite !in_app_iff in I2. destruct I2 as [I2 | [I2 | [I2 | [<- | [<- | []]]]]]; [destruct (Nat.odd _); [destruct I2 as [<- | []]; cbn in J; intuition congruence | destruct I2] | apply in_map_iff in I2 as (r & <- & I2); cbn in J; destruct J as [<- | []]; apply NI; apply in_map; now apply in_rev | destruct (size >? 0); [destruct I2 as [<- | []]; cbn in J; intuition congruence | destruct I2] | cbn in J; intuition congruence | cbn in J; tauto].
Qed.
