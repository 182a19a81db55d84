(** Proofs for C34, C44, C45: the stack pointer while a function runs *)
From Verif Require Import Base ElabProofs ElabProofs2 DtypeModel ImmcModel RegallocModel X64Model X64Isa X64Decode X64genModel IsaProofs X64genProofs LabelSpec LabelProofs RegSpec RegProofs6 CallSpec CallProofs CallProofs2 CallProofs3 CallProofs4.
Local Open Scope Z_scope.
#[local] Arguments moves : simpl never.

(** * One instruction *)
Definition dest (i : insn) : list reg :=
  match i with
  | Mov _ _ (Reg r) => [r]
  | Movsx _ _ _ r | Movzx _ _ _ r | Movabs _ r | Lea _ _ r | Shift _ _ _ r | Un _ _ r | Set_cc _ r => [r]
  | Cltq => [RAX]
  | Cxtd _ => [RDX]
  | Push _ => [RSP]
  | Pop r => [RSP; r]
  | Alu Cmp _ _ _ => []
  | Alu _ _ _ r => [r]
  | Div _ _ | Idiv _ _ => [RAX; RDX]
  | _ => []
  end.
Ltac other N := cbn in N; cbn [regs set_regs set_arith]; rewrite ?rget_put_other, ?rget_rset_other by intuition; try reflexivity.
Lemma exec_dest e i m m' : exec e i m = Next m' -> forall q, ~ In q (dest i) -> rget (regs m') q = rget (regs m) q.
Proof.
  intros H q N. destruct i; cbn [exec dest] in *.
  - destruct (read _ _ _ _) as [v |]; [| discriminate]. destruct dst as [r | v' | a]; cbn in H; [injection H as <-; other N | discriminate |].
    destruct (address _ _ _); [| discriminate]. destruct (store _ _ _ _); [| discriminate]. injection H as <-. reflexivity.
  - injection H as <-. other N.
  - injection H as <-. other N.
  - injection H as <-. other N.
  - destruct (address _ _ _); [| discriminate]. injection H as <-. other N.
  - injection H as <-. other N.
  - injection H as <-. other N.
  - destruct (read _ _ _ _) as [v |]; [| discriminate]. unfold push in H. destruct (store _ _ _ _); [| discriminate]. injection H as <-. other N.
  - unfold pop in H. destruct (load _ _ _); [| discriminate]. injection H as <-. other N.
  - destruct (read _ _ _ _) as [v |]; [| destruct op; discriminate]. destruct op; injection H as <-; try reflexivity; other N.
  - injection H as <-. other N.
  - injection H as <-. destruct op; other N.
  - cbv zeta in H. destruct (_ =? _); [discriminate |]. destruct (_ >=? _); [discriminate |]. injection H as <-. other N.
  - cbv zeta in H. destruct (_ =? _); [discriminate |]. destruct (_ || _); [discriminate |]. injection H as <-. other N.
  - destruct (fl m); [| discriminate]. injection H as <-. other N.
  - discriminate.
  - destruct (fl m); [| discriminate]. destruct (cond c f); [discriminate |]. now injection H as <-.
  - discriminate.
  - discriminate.
  - discriminate.
Qed.
Lemma reg_operand_is s o r : reg_operand s o = Some r -> exists z x, o = X64_OPERAND_REG z x /\ r = reg_of x.
Proof. destruct o; try discriminate. cbn. intros H. destruct (size_of s0); [| discriminate]. destruct (size_eqb s s1); [| discriminate]. injection H as <-. eauto. Qed.
Ltac decoding D :=
  repeat match type of D with
  | match ?x with _ => _ end = Some _ => let E := fresh "E" in destruct x eqn:E; try discriminate D
  end.
Lemma decode_dest t s d i : decode t s d = Some i -> forall q, In q (dest i) -> q = RSP \/ In q (List.map reg_of (touched (X64_INST t s d))).
Proof.
  intros D q I.
  assert (RO : forall z o r, reg_operand z o = Some r -> q = r -> In q (List.map reg_of (match Some o with Some (X64_OPERAND_REG _ x) => [x] | _ => [] end))).
  { intros z o r H ->. apply reg_operand_is in H as (z' & x & -> & ->). now left. }
  destruct t; cbn [decode touched] in D |- *; destruct s as [s |]; try discriminate D; destruct d as [d |]; try discriminate D.
  all: unfold decode_mov, decode_ext, decode_alu, decode_shift in D; decoding D; try (injection D as <-; cbn in I).
  all: try (destruct I as [<- | []]; right; (eapply RO; [eassumption | reflexivity])).
  all: try (cbn in *; intuition; fail).
  all: try tauto.
  all: try (destruct I as [<- | [<- | []]]; [now left | right; (eapply RO; [eassumption | reflexivity])]).
  destruct I as [<- | []]. right. exact (RO _ _ _ E1 eq_refl).
Qed.
(** the stack pointer *)
Definition word (v : Z) : Prop := 0 <= v < 2 ^ 64.
Lemma low8 v : low S8 v = v mod 2 ^ 64.
Proof. reflexivity. Qed.
Lemma reg_of_sp r : reg_of r = RSP -> r = SP_REG_ID.
Proof. destruct r; cbn; congruence. Qed.
Lemma low_wordy v : word (low S8 v).
Proof. apply (low_range S8). Qed.
Lemma decode_sub_sp z j i : decode X64_INST_SUBX (Some (X64_OPERAND_INT z j)) (Some (X64_OPERAND_REG X64_SUFFIX_QUAD SP_REG_ID)) = Some i -> i = Alu X64Isa.Sub S8 (Imm (lit_value j)) RSP.
Proof.
  cbn [decode]. destruct (mnemonic_size _ _) as [y |]; [| discriminate]. unfold decode_alu. cbn [reg_operand size_of]. destruct y; cbn [size_eqb]; try discriminate. cbn [operand]. destruct (imm_fits _ _); [| discriminate]. cbn. congruence.
Qed.
Lemma decode_add_sp z j i : decode X64_INST_ADDX (Some (X64_OPERAND_INT z j)) (Some (X64_OPERAND_REG X64_SUFFIX_QUAD SP_REG_ID)) = Some i -> i = Alu X64Isa.Add S8 (Imm (lit_value j)) RSP.
Proof.
  cbn [decode]. destruct (mnemonic_size _ _) as [y |]; [| discriminate]. unfold decode_alu. cbn [reg_operand size_of]. destruct y; cbn [size_eqb]; try discriminate. cbn [operand]. destruct (imm_fits _ _); [| discriminate]. cbn. congruence.
Qed.
Lemma exec_next e t s d i m m' : decode t s d = Some i -> sane (X64_INST t s d) -> exec e i m = Next m' ->
  xcall (X64_INST t s d) = false /\ xret (X64_INST t s d) = false
  /\ (word (rget (regs m) RSP) -> rget (regs m') RSP = low S8 (rget (regs m) RSP - xmove (X64_INST t s d)))
  /\ (forall q, q <> RSP -> ~ In q (List.map reg_of (touched (X64_INST t s d))) -> rget (regs m') q = rget (regs m) q).
Proof.
  intros D S H.
  assert (OT : forall q, q <> RSP -> ~ In q (List.map reg_of (touched (X64_INST t s d))) -> rget (regs m') q = rget (regs m) q).
  { intros q Q N. apply (exec_dest _ _ _ _ H). intros I. apply (decode_dest _ _ _ _ D) in I. tauto. }
  assert (X : xcall (X64_INST t s d) = false /\ xret (X64_INST t s d) = false).
  { destruct t; auto; cbn in D; decoding D; injection D as <-; discriminate H. }
  destruct X as [X1 X2]. splits; auto. intros W.
  assert (Z0 : ~ In RSP (dest i) -> xmove (X64_INST t s d) = 0 -> rget (regs m') RSP = low S8 (rget (regs m) RSP - xmove (X64_INST t s d))).
  { intros N ->. rewrite (exec_dest _ _ _ _ H _ N), Z.sub_0_r. symmetry. apply low_small. exact W. }
  assert (NS : ~ In SP_REG_ID (touched (X64_INST t s d)) -> t <> X64_INST_PUSHX -> t <> X64_INST_POPX -> ~ In RSP (dest i)).
  { intros N P1 P2 I.
    assert (Q : In RSP (List.map reg_of (touched (X64_INST t s d)))); [| apply in_map_iff in Q as (x & E & Q); apply reg_of_sp in E; subst; tauto].
    destruct (decode_dest _ _ _ _ D _ I) as [_ | Q]; [| exact Q].
    assert (RO : forall z o r, reg_operand z o = Some r -> RSP = r -> In RSP (List.map reg_of (match Some o with Some (X64_OPERAND_REG _ x) => [x] | _ => [] end))).
    { intros z o r R ->. apply reg_operand_is in R as (z' & x & -> & ->). now left. }
    destruct t; cbn [decode touched] in D |- *; destruct s as [s |]; try discriminate D; destruct d as [d |]; try discriminate D; try congruence.
    all: unfold decode_mov, decode_ext, decode_alu, decode_shift in D; decoding D; try (injection D as <-; cbn in I).
    all: try (destruct I as [I | []]; (eapply RO; [eassumption | congruence])).
    all: try (cbn in *; intuition; fail).
    destruct I as [I | []]. exact (RO _ _ _ E1 (eq_sym I)). }
  destruct (xinst_eq_dec t X64_INST_PUSHX) as [-> | P1].
  { clear NS Z0. cbn [decode] in D. decoding D. injection D as <-. cbn [exec] in H. destruct (read _ _ _ _); [| discriminate]. unfold push in H. destruct (store _ _ _ _); [| discriminate]. injection H as <-. cbn [regs]. rewrite rget_rset_same. reflexivity. }
  destruct (xinst_eq_dec t X64_INST_POPX) as [-> | P2].
  { clear NS Z0. cbn [decode] in D. destruct s as [s |]; [discriminate |]. destruct d as [d |]; [| discriminate]. destruct (reg_operand S8 d) as [r |] eqn:E0; [| discriminate]. injection D as <-. cbn [exec] in H. unfold pop in H. destruct (load _ _ _); [| discriminate].
    apply reg_operand_is in E0 as (z' & x & -> & ->). cbn in S. assert (XS : reg_of x <> RSP) by (intros Q; apply reg_of_sp in Q; apply S; now left).
    injection H as <-. cbn [regs set_regs]. rewrite rget_rset_other by congruence. rewrite rget_rset_same. f_equal. }
  destruct (xinst_eq_dec t X64_INST_SUBX) as [-> | P3].
  { destruct (in_dec xreg_eq_dec SP_REG_ID (touched (X64_INST X64_INST_SUBX s d))) as [IN | IN].
    - destruct s as [[] |]; try (exfalso; exact (S IN)); destruct d as [[ | z0 [] | | | | | | ] |]; try (exfalso; exact (S IN)); destruct z0; try (exfalso; exact (S IN)).
      clear Z0 NS. apply decode_sub_sp in D as ->. cbn [exec read] in H. injection H as <-. cbn [regs set_arith]. first [rewrite rget_put8 | rewrite rget_rset_same]. cbn [alu xmove]. unfold get. apply low_sub; apply low_low.
    - apply Z0; [apply NS; auto |]. cbn. destruct s as [[] |]; try reflexivity; destruct d as [[ | z0 [] | | | | | | ] |]; try reflexivity; destruct z0; try reflexivity; exfalso; apply IN; now left. }
  destruct (xinst_eq_dec t X64_INST_ADDX) as [-> | P4].
  { destruct (in_dec xreg_eq_dec SP_REG_ID (touched (X64_INST X64_INST_ADDX s d))) as [IN | IN].
    - destruct s as [[] |]; try (exfalso; exact (S IN)); destruct d as [[ | z0 [] | | | | | | ] |]; try (exfalso; exact (S IN)); destruct z0; try (exfalso; exact (S IN)).
      clear Z0 NS. apply decode_add_sp in D as ->. cbn [exec read] in H. injection H as <-. cbn [regs set_arith]. first [rewrite rget_put8 | rewrite rget_rset_same]. cbn [alu xmove]. unfold get. rewrite Z.sub_opp_r. apply low_add; apply low_low.
    - apply Z0; [apply NS; auto |]. cbn. destruct s as [[] |]; try reflexivity; destruct d as [[ | z0 [] | | | | | | ] |]; try reflexivity; destruct z0; try reflexivity; exfalso; apply IN; now left. }
  assert (S' : ~ In SP_REG_ID (touched (X64_INST t s d))) by (destruct t; try exact S; congruence).
  apply Z0; [now apply NS |]. destruct t; try reflexivity; congruence.
Qed.
Ltac crush H := unfold next in H; cbv zeta in H; repeat (match type of H with context [match ?x with _ => _ end] => destruct x end; try discriminate H).
Lemma exec_goto e t s d i m l m' : decode t s d = Some i -> exec e i m = Goto l m' -> m' = m /\ In l (xtarget (X64_INST t s d)) /\ xmove (X64_INST t s d) = 0.
Proof.
  intros D H. assert (I : m' = m /\ (i = Jmp l \/ exists c, i = Jcc c l)).
  { destruct i; cbn [exec] in H; try discriminate H; try (crush H; fail).
    - injection H as <- <-. auto.
    - destruct (fl m); [| discriminate]. destruct (cond c f); [| discriminate]. injection H as <- <-. eauto. }
  destruct I as [-> I]. split; [reflexivity |].
  destruct t; cbn [decode] in D; destruct s as [s |]; try discriminate D; destruct d as [d |]; try discriminate D;
    unfold decode_mov, decode_ext, decode_alu, decode_shift in D; decoding D; try (injection D as <-); destruct I as [I | [c' I]]; try discriminate I; (split; [| reflexivity]); cbn; left; congruence.
Qed.
Lemma exec_calls e t s d i m m' : decode t s d = Some i -> (exists l, exec e i m = Calls l m') \/ (exists a, exec e i m = Calls_at a m') -> m' = m /\ xcall (X64_INST t s d) = true /\ xmove (X64_INST t s d) = 0.
Proof.
  intros D H. assert (I : m' = m /\ ((exists l, i = Call l) \/ exists r, i = Call_reg r)).
  { destruct H as [[l H] | [a H]]; destruct i; cbn [exec] in H; try discriminate H; try (crush H; fail); injection H as <- <-; eauto. }
  destruct I as [-> I]. split; [reflexivity |].
  destruct t; cbn [decode] in D; destruct s as [s |]; try discriminate D; destruct d as [d |]; try discriminate D;
    unfold decode_mov, decode_ext, decode_alu, decode_shift in D; decoding D; try (injection D as <-); destruct I as [[? I] | [? I]]; try discriminate I; split; reflexivity.
Qed.
Lemma exec_returns e t s d i m m' : decode t s d = Some i -> exec e i m = Returns m' -> m' = m /\ xret (X64_INST t s d) = true.
Proof.
  intros D H. assert (I : m' = m /\ i = Ret).
  { destruct i; cbn [exec] in H; try discriminate H; try (crush H; fail). injection H as <-. auto. }
  destruct I as [-> ->]. split; [reflexivity |].
  destruct t; cbn [decode] in D; destruct s as [s |]; try discriminate D; destruct d as [d |]; try discriminate D;
    unfold decode_mov, decode_ext, decode_alu, decode_shift in D; decoding D; try discriminate D; reflexivity.
Qed.

(** * Runs of a function *)
Definition depth (F : list x64) (p : nat) : Z := xgrown (firstn p F).
Lemma nth_split_at {B} (F : list B) p c : nth_error F p = Some c -> F = firstn p F ++ c :: skipn (S p) F /\ length (firstn p F) = p.
Proof.
  revert p. induction F as [| x F IH]; intros [| p] H; try discriminate H; cbn in *; [injection H as ->; auto |]. destruct (IH _ H) as [A B0]. split; [now f_equal | now f_equal].
Qed.
Lemma depth_next F p c : nth_error F p = Some c -> depth F (S p) = depth F p + xmove c.
Proof.
  intros H. unfold depth. assert (E : firstn (S p) F = firstn p F ++ [c]); [| rewrite E, xgrown_app; unfold xgrown at 2; cbn [List.map fold_right]; lia].
  revert p H. induction F as [| x F IH]; intros [| p] H; try discriminate H; cbn in *; [injection H as ->; auto |]. f_equal. now apply IH.
Qed.
Lemma label_at_depth F p t v n : nth_error F p = Some (X64_LABEL t v n) -> In (n, depth F p) (xlabels 0 F).
Proof. intros H. destruct (nth_split_at _ _ _ H) as [E _]. rewrite E at 2. rewrite xlabels_app. apply in_app_iff. right. now left. Qed.
Lemma target_at_depth F p c n : nth_error F p = Some c -> In n (xtarget c) -> In (n, depth F p) (xjumps 0 F).
Proof. intros H I. destruct (nth_split_at _ _ _ H) as [E _]. rewrite E at 2. rewrite xjumps_app. apply in_app_iff. right. cbn [xjumps]. apply in_app_iff. left. apply in_map_iff. exists n. auto. Qed.
Lemma call_at_depth F p c : nth_error F p = Some c -> xcall c = true -> In (depth F p) (xcalls 0 F).
Proof. intros H I. destruct (nth_split_at _ _ _ H) as [E _]. rewrite E at 2. rewrite xcalls_app. apply in_app_iff. right. cbn [xcalls]. rewrite I. now left. Qed.
Lemma unique_depth {B} (l : list (name * B)) n a b : NoDup (List.map fst l) -> In (n, a) l -> In (n, b) l -> a = b.
Proof.
  induction l as [| [m x] l IH]; intros N I J; [destruct I |]. cbn in N. inversion N as [| ? ? N1 N2]; subst.
  destruct I as [I | I], J as [J | J]; try congruence; [| | auto]; [injection I as -> -> | injection J as -> ->]; destruct N1; apply in_map_iff; [exists (n, b) | exists (n, a)]; auto.
Qed.
Section Run.
Variables (e : env) (F : list x64).
Hypotheses (SN : Forall sane F) (ND : NoDup (names_of F)) (JL : forall n y, In (n, y) (xjumps 0 F) -> In (n, y) (xlabels 0 F)).
Lemma run_depth a b : steps e F a b -> forall S0, word S0 -> rget (regs (snd a)) RSP = low S8 (S0 - depth F (fst a)) -> rget (regs (snd b)) RSP = low S8 (S0 - depth F (fst b)).
Proof.
  intros R S0 W H. induction R as [c | a b c R IH ST]; [exact H |]. specialize (IH H). clear R H. rewrite Forall_forall in SN.
  assert (WB : word (rget (regs (snd b)) RSP)) by (rewrite IH; apply low_wordy).
  destruct ST as [p m t v n E | p m t s d i m' E D X | p m t s d i l m' q t' v E D X E' | p m t s d i m1 m2 E D X RT]; cbn [fst snd] in *.
  - rewrite (depth_next _ _ _ E). cbn [xmove]. now rewrite Z.add_0_r.
  - destruct (exec_next _ _ _ _ _ _ _ D (SN _ (nth_error_In _ _ E)) X) as (_ & _ & M & _). rewrite (M WB), (depth_next _ _ _ E), IH. replace (S0 - (depth F p + xmove (X64_INST t s d))) with (S0 - depth F p - xmove (X64_INST t s d)) by lia. apply low_sub; [apply low_low | reflexivity].
  - destruct (exec_goto _ _ _ _ _ _ _ _ D X) as (-> & T & _). rewrite IH. do 2 f_equal. eapply (unique_depth (xlabels 0 F) l); [now rewrite xlabels_names | apply JL; eapply target_at_depth; eassumption | eapply label_at_depth, E'].
  - destruct (exec_calls _ _ _ _ _ _ _ D X) as (-> & _ & M). rewrite (depth_next _ _ _ E), M, Z.add_0_r, <- IH. apply RT. cbn. tauto.
Qed.
End Run.
Lemma dlabels_shift e : forall l d, dlabels (d + e) l = List.map (fun p => (fst p, snd p + e)) (dlabels d l).
Proof. induction l as [| c l IH]; intros d; [reflexivity |]. cbn. rewrite map_app, map_map. cbn. replace (d + e + moves c) with (d + moves c + e) by lia. now rewrite IH. Qed.
Lemma djumps_shift e : forall l d, djumps (d + e) l = List.map (fun p => (fst p, snd p + e)) (djumps d l).
Proof. induction l as [| c l IH]; intros d; [reflexivity |]. cbn. rewrite map_app, map_map. cbn. replace (d + e + moves c) with (d + moves c + e) by lia. now rewrite IH. Qed.
Lemma dcalls_shift e : forall l d, dcalls (d + e) l = List.map (fun p => p + e) (dcalls d l).
Proof. induction l as [| c l IH]; intros d; [reflexivity |]. cbn. rewrite map_app. replace (d + e + moves c) with (d + moves c + e) by lia. rewrite IH. now destruct (is_call c). Qed.
(** prologue and epilogue *)
Definition flat (cs : list x64) : Prop := (forall d, xlabels d cs = []) /\ (forall d, xjumps d cs = []) /\ (forall d, xcalls d cs = []) /\ Forall sane cs /\ Forall (fun c => xret c = false) cs.
Lemma flat_nil : flat [].
Proof. unfold flat. splits; auto. Qed.
Lemma flat_app a b : flat a -> flat b -> flat (a ++ b).
Proof. intros (A1 & A2 & A3 & A4 & A5) (B1 & B2 & B3 & B4 & B5). unfold flat. splits; [intros d; now rewrite xlabels_app, A1, B1 | intros d; now rewrite xjumps_app, A2, B2 | intros d; now rewrite xcalls_app, A3, B3 | now apply Forall_app | now apply Forall_app]. Qed.
Lemma flat_one c : xlabel c = [] -> xtarget c = [] -> xcall c = false -> sane c -> xret c = false -> flat [c].
Proof. intros A1 A2 A3 A4 A5. unfold flat. splits; [intros d; cbn; now rewrite A1 | intros d; cbn; now rewrite A2 | intros d; cbn; now rewrite A3 | auto | auto]. Qed.
Lemma saved_sp saved : saved = firstn (length saved) CALLEE_SAVED_REG_IDS -> ~ In SP_REG_ID saved.
Proof. intros E I. rewrite E in I. apply (allowed_sp (Z.of_nat (length saved))). right. apply in_app_iff. right. now rewrite Nat2Z.id. Qed.
Lemma prologue_flat size saved : flat (prologue size saved) /\ xgrown (prologue size saved) = frame_depth size saved.
Proof.
  destruct (pushes_facts saved) as (P1 & P2 & P3 & P4 & P5 & P6). unfold prologue. split.
  - apply flat_app; [apply (flat_app [_] [_]); apply flat_one; try reflexivity; cbn; intuition discriminate |]. apply flat_app; [destruct (size >? 0); [apply flat_one; try reflexivity; exact Logic.I | apply flat_nil] |].
    apply flat_app; [| destruct (Nat.odd _); [apply flat_one; try reflexivity; exact Logic.I | apply flat_nil]]. unfold flat. splits; auto. eapply Forall_impl; [| exact P6]. intros c Q. apply Q.
  - rewrite !xgrown_app. unfold quad in *. rewrite P1. unfold frame_depth.
    assert (A1 : xgrown (if size >? 0 then [X64_INST X64_INST_SUBX (number size) (Some (X64_OPERAND_REG X64_SUFFIX_QUAD SP_REG_ID))] else []) = Z.max 0 size) by (destruct (size >? 0) eqn:G; unfold xgrown; cbn [List.map fold_right]; [change (xmove _) with size; lia | lia]).
    assert (A2 : xgrown (if Nat.odd (length saved) then [X64_INST X64_INST_SUBX (number 8) (Some (X64_OPERAND_REG X64_SUFFIX_QUAD SP_REG_ID))] else []) = if Nat.odd (length saved) then 8 else 0) by (destruct (Nat.odd _); reflexivity).
    rewrite A1, A2. unfold xgrown at 1. cbn [List.map fold_right xmove]. lia.
Qed.
Lemma epilogue_flat size saved : ~ In SP_REG_ID saved -> exists l, epilogue size saved = l ++ [X64_INST X64_INST_RET None None] /\ flat l /\ xgrown l = - frame_depth size saved.
Proof.
  intros N. destruct (pops_facts (rev saved)) as (P2 & P3 & P4 & P5 & P6 & _). assert (P1 := pops_grown (rev saved)). rewrite rev_length in P1. unfold epilogue.
  exists ((if Nat.odd (length saved) then [X64_INST X64_INST_ADDX (number 8) (quad SP_REG_ID)] else []) ++ List.map (fun r => X64_INST X64_INST_POPX None (quad r)) (rev saved) ++ (if size >? 0 then [X64_INST X64_INST_ADDX (number size) (quad SP_REG_ID)] else []) ++ [X64_INST X64_INST_POPX None (quad BP_REG_ID)]). splits.
  - rewrite <- !app_assoc. reflexivity.
  - apply flat_app; [destruct (Nat.odd _); [apply flat_one; try reflexivity; exact Logic.I | apply flat_nil] |].
    apply flat_app; [unfold flat; splits; auto; [apply P5; rewrite <- in_rev; exact N | eapply Forall_impl; [| exact P6]; intros c Q; apply Q] |].
    apply flat_app; [destruct (size >? 0); [apply flat_one; try reflexivity; exact Logic.I | apply flat_nil] | apply flat_one; try reflexivity; cbn; intuition discriminate].
  - rewrite !xgrown_app. unfold quad in *. rewrite P1. unfold frame_depth.
    assert (A1 : xgrown (if size >? 0 then [X64_INST X64_INST_ADDX (number size) (Some (X64_OPERAND_REG X64_SUFFIX_QUAD SP_REG_ID))] else []) = - Z.max 0 size) by (destruct (size >? 0) eqn:G; unfold xgrown; cbn [List.map fold_right]; [change (xmove _) with (- size); lia | lia]).
    assert (A2 : xgrown (if Nat.odd (length saved) then [X64_INST X64_INST_ADDX (number 8) (Some (X64_OPERAND_REG X64_SUFFIX_QUAD SP_REG_ID))] else []) = - if Nat.odd (length saved) then 8 else 0) by (destruct (Nat.odd _); reflexivity).
    rewrite A1, A2. unfold xgrown at 1. cbn [List.map fold_right xmove]. lia.
Qed.
Lemma frame_even size saved : size mod 16 = 0 -> frame_depth size saved mod 16 = 8.
Proof.
  intros S. unfold frame_depth. assert (O : Z.of_nat (length saved) mod 2 = if Nat.odd (length saved) then 1 else 0) by (rewrite Zmod_odd, odd_nat; reflexivity).
  destruct (Nat.odd (length saved)); Z.div_mod_to_equations; lia.
Qed.
Record steady (k : bool) (F : list x64) : Prop := {
  sd_sane : Forall sane F;
  sd_jumps : forall n y, In (n, y) (xjumps 0 F) -> In (n, y) (xlabels 0 F);
  sd_calls : k = true -> forall y, In y (xcalls 0 F) -> y mod 16 = 8;
  sd_ret : forall p c, nth_error F p = Some c -> xret c = true -> depth F p = 0 }.
Lemma framed_steady k F : framed k F -> steady k F.
Proof.
  intros (size & saved & body & l & (v & n & ->) & S16 & SV & K & (LV1 & LV2 & LV3 & _)).
  destruct (prologue_flat size saved) as ((P1 & P2 & P3 & P4 & P5) & P6). destruct (epilogue_flat size saved (saved_sp _ SV)) as (ep & -> & (E1 & E2 & E3 & E4 & E5) & E6).
  set (g := frame_depth size saved) in *. set (lab := X64_LABEL _ _ _). set (ret := X64_INST X64_INST_RET _ _).
  assert (G : xgrown body = 0) by (rewrite (cs_grown _ _ _ K); lia).
  assert (SH : forall t, t = 0 + g -> t = g) by (intros; lia).
  constructor.
  - constructor; [cbn; auto |]. rewrite !Forall_app. splits; auto; [apply (cs_sane _ _ _ K) | constructor; [cbn; auto | constructor]].
  - intros m y I. cbn [xjumps xlabels xtarget xlabel lab List.map app] in I |- *. right. rewrite !xjumps_app, P2, E2, P6, (cs_jumps _ _ _ K) in I. cbn [app xjumps xtarget ret is_jump] in I.
    rewrite !xlabels_app, P1, E1, P6, (cs_labels _ _ _ K). cbn [app xlabels xlabel ret].
    change (xmove lab) with 0 in *. cbn [Z.add] in *. change g with (0 + g) in I |- *. rewrite djumps_shift in I. rewrite dlabels_shift. rewrite !app_nil_r in *.
    apply in_map_iff in I as ([m' y'] & E & I). cbn in E. injection E as <- <-. destruct (LV2 _ _ I) as [J | [_ []]]. apply in_map_iff. exists (m', y'). auto.
  - intros KT y I. cbn [xcalls xcall lab app] in I. rewrite !xcalls_app, P3, E3, P6, (cs_calls _ _ _ K) in I. cbn [app xcalls xcall ret] in I. change (xmove lab) with 0 in *. cbn [Z.add] in I. change g with (0 + g) in I. rewrite dcalls_shift in I. rewrite !app_nil_r in I.
    apply in_map_iff in I as (y' & <- & I). specialize (LV3 KT). rewrite Forall_forall in LV3. specialize (LV3 _ I). assert (GE := frame_even size saved S16). fold g in GE. clear - LV3 GE. Z.div_mod_to_equations. lia.
  - intros p c H R. assert (E : lab :: prologue size saved ++ body ++ ep ++ [ret] = (lab :: prologue size saved ++ body ++ ep) ++ [ret]) by (cbn [app]; rewrite <- !app_assoc; reflexivity).
    rewrite E in *. set (pre := lab :: _) in *.
    assert (NR : Forall (fun c => xret c = false) pre). { constructor; [reflexivity |]. rewrite !Forall_app. splits; auto. eapply Forall_impl; [| exact (cs_stays _ _ _ K)]. intros x Q. apply Q. }
    assert (PL : p = length pre).
    { destruct (Nat.lt_ge_cases p (length pre)) as [Lt | Ge]; [rewrite nth_error_app1 in H by assumption; rewrite Forall_forall in NR; specialize (NR _ (nth_error_In _ _ H)); congruence |].
      rewrite nth_error_app2 in H by assumption. destruct (p - length pre)%nat as [| z] eqn:Z0; [lia | destruct z; discriminate H]. }
    subst p. unfold depth. rewrite firstn_app, Nat.sub_diag, firstn_all. cbn [firstn]. rewrite app_nil_r. subst pre. rewrite xgrown_cons, !xgrown_app, P6, G, E6. change (xmove lab) with 0. lia.
Qed.
