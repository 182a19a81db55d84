(** Proofs for C48: calls, one instruction at a time *)
From Coq Require Import Lia ZifyBool.
From Verif Require Import Base ElabProofs ImmcModel LabelSpec X64Model X64genModel X64Decode OpSpec CSem ImmcSem IsaProofs IsaMemProofs X64genProofs X64genProofs2 X64genProofs5 RegSpec CallSpec CallProofs5 CallProofs7 MarkSpec SimSpec SimCallSpec SimProofs SimProofs5 X64Isa.
Local Open Scope Z_scope.

(** * Registers hold 64 bits *)
Lemma put_range f s r v : (forall q, 0 <= rget f q < 2 ^ 64) -> forall q, 0 <= rget (put f s r v) q < 2 ^ 64.
Proof.
  intros H q. assert (B := H r). assert (L : forall z, 0 <= low z v < 2 ^ nbits z) by (intros z; unfold low; apply Z.mod_pos_bound; destruct z; reflexivity).
  destruct (reg_dec q r) as [-> | N].
  - destruct s; cbn [put]; rewrite rget_rset_same; specialize (L S1) as L1; specialize (L S2) as L2; specialize (L S4) as L4; specialize (L S8) as L8; cbn [nbits] in *.
    + change (2 ^ 8) with 256 in *. assert (D := Z.div_mod (rget f r) 256). assert (M := Z.mod_pos_bound (rget f r) 256). change (2 ^ 64) with (256 * 2 ^ 56) in *. lia.
    + change (2 ^ 16) with 65536 in *. assert (D := Z.div_mod (rget f r) 65536). assert (M := Z.mod_pos_bound (rget f r) 65536). change (2 ^ 64) with (65536 * 2 ^ 48) in *. lia.
    + change (2 ^ 64) with (2 ^ 32 * 2 ^ 32). lia.
    + lia.
  - destruct s; cbn [put]; rewrite rget_rset_other by congruence; apply H.
Qed.
Lemma rset_range f r v : (forall q, 0 <= rget f q < 2 ^ 64) -> 0 <= v < 2 ^ 64 -> forall q, 0 <= rget (rset f r v) q < 2 ^ 64.
Proof. intros H V q. destruct (reg_dec q r) as [-> | N]; [now rewrite rget_rset_same | rewrite rget_rset_other by congruence; apply H]. Qed.
Lemma low8_range v : 0 <= low S8 v < 2 ^ 64.
Proof. unfold low. cbn [nbits]. apply Z.mod_pos_bound. reflexivity. Qed.
Lemma exec_range e i m m' : in_range m -> exec e i m = Next m' -> in_range m'.
Proof.
  intros H E. assert (P : forall f s r v, (forall q, 0 <= rget f q < 2 ^ 64) -> forall q, 0 <= rget (put f s r v) q < 2 ^ 64) by (intros; now apply put_range).
  unfold in_range in *. destruct i; cbn [exec] in E; try discriminate E.
  all: try (injection E as <-; cbn [regs set_regs set_arith]; first [apply P; exact H | apply rset_range; [exact H | apply low8_range]]).
  - destruct (read e s src m) as [v |]; [| discriminate E]. unfold next, write in E. destruct dst as [r | z | a]; [injection E as <-; apply P; exact H | discriminate E |]. destruct (address e m a) as [p |]; [| discriminate E]. destruct (store (mem m) s p v) as [M |]; [| discriminate E]. injection E as <-. exact H.
  - destruct (address e m a) as [p |]; [| discriminate E]. injection E as <-. apply P, H.
  - destruct (read e S8 src m) as [v |]; [| discriminate E]. unfold next, push in E. destruct (store (mem m) S8 _ v) as [M |]; [| discriminate E]. injection E as <-. cbn [regs]. apply rset_range; [exact H | apply low8_range].
  - unfold pop in E. destruct (load (mem m) S8 (rsp (regs m))) as [v |]; [| discriminate E]. injection E as <-. cbn [regs set_regs]. apply rset_range; [| apply low8_range]. apply rset_range; [exact H | apply low8_range].
  - destruct op; destruct (read e s src m) as [v |]; try discriminate E; injection E as <-; cbn [regs set_arith]; try (apply P; exact H). exact H.
  - destruct op; injection E as <-; cbn [regs set_regs set_arith]; apply P, H.
  - cbv zeta in E. destruct (_ =? 0); [discriminate E |]. destruct (_ >=? _); [discriminate E |]. injection E as <-. cbn [regs set_arith]. apply P, P, H.
  - cbv zeta in E. destruct (_ =? 0); [discriminate E |]. destruct (_ || _); [discriminate E |]. injection E as <-. cbn [regs set_arith]. apply P, P, H.
  - destruct (fl m) as [f |]; [| discriminate E]. assert (X : m' = set_regs m (put (regs m) S1 dst (if cond c f then 1 else 0))) by congruence. rewrite X. apply P, H.
  - destruct (fl m) as [f |]; [| discriminate E]. destruct (cond c f); [discriminate E |]. injection E as <-. exact H.
Qed.
Lemma exec_goto_range e i m l m' : in_range m -> exec e i m = Goto l m' -> in_range m'.
Proof.
  intros H E. destruct i; cbn [exec] in E; try discriminate E; unfold next, write, push, pop in E; repeat (match type of E with context [match ?x with _ => _ end] => destruct x end; try discriminate E); injection E as _ <-; exact H.
Qed.
Lemma list_range e : forall l m m', in_range m -> exec_list e l m = Next m' -> in_range m'.
Proof. induction l as [| i l IH]; intros m m' H E; cbn in E; [now injection E as <- |]. destruct (exec e i m) as [m1 | | | | |] eqn:X; try discriminate E. eapply IH; [| exact E]. eapply exec_range; eassumption. Qed.
Lemma list_goto_range e l : forall il m m', in_range m -> exec_list e il m = Goto l m' -> in_range m'.
Proof. induction il as [| i il IH]; intros m m' H E; cbn in E; [discriminate E |]. destruct (exec e i m) as [m1 | | | | |] eqn:X; try discriminate E; [eapply IH; [| exact E]; eapply exec_range; eassumption | injection E as <- <-; eapply exec_goto_range; eassumption]. Qed.
Lemma runs_range e cs m m' : in_range m -> runs e cs m (Next m') -> in_range m'.
Proof. intros H (l & _ & E). eapply list_range; eassumption. Qed.
Lemma runs_goto_range e cs m l m' : in_range m -> runs e cs m (Goto l m') -> in_range m'.
Proof. intros H (il & _ & E). eapply list_goto_range; eassumption. Qed.

(** * Steps *)
Lemma with_trans K e F a b c : steps_with K e F a b -> steps_with K e F b c -> steps_with K e F a c.
Proof. intros H J. induction H; [exact J |]. eapply with_more; [eassumption | auto]. Qed.
Lemma own_with K e F a b : own_steps e F a b -> steps_with K e F a b.
Proof. intros H. induction H; [apply with_refl |]. eapply with_more; [apply with_own; eassumption | assumption]. Qed.

(** * Phases *)
Lemma phase_app : forall l l' p, phase_after p (l ++ l') = match phase_after p l with Some p' => phase_after p' l' | None => None end.
Proof. induction l as [| c l IH]; intros l' p; cbn; [reflexivity |]. destruct (next_phase p c); [apply IH | reflexivity]. Qed.
Lemma phase_plain p c p' : next_phase p c = Some p' -> call_part c = false -> p' = p.
Proof.
  intros H C. destruct c as [t d f g | | |]; cbn [call_part] in C; [destruct t; try discriminate C |..]; destruct p; cbn in H; rewrite ?C in H; try (match type of H with context [if ?b then _ else _] => destruct b end); congruence.
Qed.
Lemma phase_boundary p c p' : next_phase p c = Some p' -> call_part c = false -> boundary c = true -> p = Outside.
Proof.
  intros H C B. destruct p; [reflexivity | |]; exfalso; destruct c as [t d f g | | |]; cbn [call_part] in C; try (destruct t; try discriminate C); unfold next_phase in H; rewrite ?B in H; cbn [orb call_part] in H; discriminate H.
Qed.

(** * Arguments pending *)
Lemma args_next call lab frame params c q q' : call_part c = false -> istep call lab frame params c q = INext q' -> i_args q' = i_args q.
Proof.
  intros C H. destruct c as [t d f g | | |]; try discriminate H; [| injection H as <-; reflexivity]. destruct t; try discriminate C; destruct d as [d |], f as [f |], g as [g |]; cbn [istep] in H; unfold put_result in H; try discriminate H;
    repeat (match type of H with context [match ?x with _ => _ end] => destruct x end; try discriminate H); try (injection H as <-; reflexivity).
Qed.
Lemma args_goto call lab frame params c q n q' : istep call lab frame params c q = IGoto n q' -> i_args q' = i_args q.
Proof.
  intros H. destruct c as [t d f g | | |]; try discriminate H. destruct t; destruct d as [d |], f as [f |], g as [g |]; cbn [istep] in H; unfold put_result in H; try discriminate H;
    repeat (match type of H with context [match ?x with _ => _ end] => destruct x end; try discriminate H); try (injection H as _ <-; reflexivity).
Qed.
Lemma choose_list {T} (P : nat -> T -> Prop) : forall n b, (forall j, (j < n)%nat -> exists w, P (b + j)%nat w) -> exists ws, length ws = n /\ forall j w, nth_error ws j = Some w -> P (b + j)%nat w.
Proof.
  induction n as [| n IH]; intros b H; [exists []; split; [reflexivity |]; intros [|] w E; discriminate E |]. destruct (H 0%nat ltac:(lia)) as (w & W). destruct (IH (S b)) as (ws & L & A).
  { intros j J. replace (S b + j)%nat with (b + S j)%nat by lia. apply H. lia. }
  exists (w :: ws). split; [cbn; now rewrite L |]. intros [| j] w' E; cbn in E; [injection E as <-; exact W |]. replace (b + S j)%nat with (S b + j)%nat by lia. now apply A.
Qed.
Lemma collected slots : forall n k vs, collect_args slots n k = Some vs -> length vs = n /\ forall j v, nth_error vs j = Some v -> slots (k + Z.of_nat j) = Some v.
Proof.
  induction n as [| n IH]; intros k vs H; cbn in H; [injection H as <-; split; [reflexivity |]; intros [|] v E; discriminate E |]. destruct (slots k) as [v |] eqn:Sk; [| discriminate H]. destruct (collect_args slots n (k + 1)) as [r |] eqn:Cr; [| discriminate H]. injection H as <-. destruct (IH _ _ Cr) as (L & A).
  split; [cbn; now rewrite L |]. intros [| j] w E; cbn in E; [injection E as <-; now rewrite Z.add_0_r |]. replace (k + Z.of_nat (S j)) with (k + 1 + Z.of_nat j) by lia. now apply A.
Qed.

(** * Parts of calls *)
Lemma next_prep p d f g p' : next_phase p (IMMC_INST IMMC_INST_PREP d f g) = Some p' -> exists s i, d = None /\ f = Some (IMMC_OPERAND_INT s i) /\ g = None /\ p = Outside /\ 0 <= wraps 32 (sval i) <= 6 /\ p' = Arguments (wraps 32 (sval i)) 0.
Proof.
  intros H. destruct d as [d |]; [destruct p; discriminate H |]. destruct f as [f |]; [| destruct p; discriminate H]. destruct f as [s r | s r | r | z | n | s i | s]; try (destruct p; discriminate H). destruct g as [g |]; [destruct p; discriminate H |]. destruct p; try discriminate H. cbn [next_phase] in H. cbv zeta in H. destruct (_ && _) eqn:B in H; [| discriminate H]. injection H as <-.
  exists s, i. repeat split; try lia. f_equal. lia.
Qed.
Lemma next_starg p d f g p' : next_phase p (IMMC_INST IMMC_INST_STARG d f g) = Some p' -> exists s r f' n k, d = Some (IMMC_OPERAND_ARG s r) /\ f = Some f' /\ g = None /\ p = Arguments n k /\ k < n /\ reg_id r = n - 1 - k /\ p' = Arguments n (k + 1).
Proof.
  intros H. destruct d as [d |]; [| destruct p; discriminate H]. destruct d as [s r | s r | r | z | n | s i | s]; try (destruct p; discriminate H). destruct f as [f |]; [| destruct p; discriminate H]. destruct g as [g |]; [destruct p; discriminate H |]. destruct p as [| n k |]; try discriminate H. cbn [next_phase] in H. destruct (_ && _) eqn:B in H; [| discriminate H]. injection H as <-.
  exists s, r, f, n, k. repeat split; lia.
Qed.
Lemma next_call p d f g p' : next_phase p (IMMC_INST IMMC_INST_CALL d f g) = Some p' -> exists l s i, f = Some (IMMC_OPERAND_LABEL l) /\ g = Some (IMMC_OPERAND_INT s i) /\ p = Arguments (wraps 32 (sval i)) (wraps 32 (sval i)) /\ lit_value i = wraps 32 (sval i) /\ p' = Called.
Proof.
  intros H. destruct f as [f |]; [| destruct p; discriminate H]. destruct f as [s r | s r | r | z | n | s i | s]; try (destruct p; discriminate H). destruct g as [g |]; [| destruct p; discriminate H]. destruct g as [s r | s r | r | z | n' | s i | s]; try (destruct p; discriminate H). destruct p as [| n0 k |]; try discriminate H. cbn [next_phase] in H. destruct (_ && _) eqn:B in H; [| discriminate H]. injection H as <-.
  exists n, s, i. repeat split; try lia. f_equal; lia.
Qed.
Lemma next_clean p d f g p' : next_phase p (IMMC_INST IMMC_INST_CLEAN d f g) = Some p' -> exists s i, d = None /\ f = Some (IMMC_OPERAND_INT s i) /\ g = None /\ p = Called /\ wraps 32 (sval i) <= 6 /\ p' = Outside.
Proof.
  intros H. destruct d as [d |]; [destruct p; discriminate H |]. destruct f as [f |]; [| destruct p; discriminate H]. destruct f as [s r | s r | r | z | n | s i | s]; try (destruct p; discriminate H). destruct g as [g |]; [destruct p; discriminate H |]. destruct p; try discriminate H. cbn [next_phase] in H. destruct (_ <=? _) eqn:B in H; [| discriminate H]. injection H as <-.
  exists s, i. repeat split; lia.
Qed.
Lemma call_moves d f g st cs st' : gen_inst_x64code (IMMC_INST IMMC_INST_CALL (Some d) f g) st = Ok (cs, st') -> exists r k, ope_reg d = Some r /\ machine_reg (reg_id r) = Some k.
Proof.
  intros H. cbn [gen_inst_x64code] in H. unfold gen_call in H. apply bind_ok in H as (f' & _ & H). apply bind_ok in H as (g' & _ & H). apply bind_ok in H as (set & _ & H). apply bind_ok in H as (ev & _ & H). apply bind_ok in H as (n & _ & H). apply bind_ok in H as ([keep callee] & _ & H). apply bind_ok in H as (move & M & _). apply bind_ok in M as (x & X & _). unfold ope_real in X. apply bind_ok in X as (r & R & X). apply caller_machine in X. destruct (ope_reg d) as [r' |]; [| discriminate R]. injection R as <-. eauto.
Qed.
Lemma call_does call lab frame params d l sn i q q' : istep call lab frame params (IMMC_INST IMMC_INST_CALL d (Some (IMMC_OPERAND_LABEL l)) (Some (IMMC_OPERAND_INT sn i))) q = INext q' ->
  exists a slots r vs x W', lab l = Some a /\ i_args q = slots :: r /\ collect_args slots (Z.to_nat (lit_value i)) 0 = Some vs /\ call a vs (i_world q) = Ok (x, W')
    /\ i_world q' = W' /\ i_args q' = i_args q /\ i_ret q' = i_ret q
    /\ match d with None => i_regs q' = i_regs q | Some d => exists sf r z, d = IMMC_OPERAND_REG sf r /\ suffix_size sf = Some z /\ i_regs q' = upd (i_regs q) (reg_id r) (Some (z, low z x)) end.
Proof.
  intros Si. assert (Si' : match lab l, i_args q with
      | Some a, slots :: _ => match collect_args slots (Z.to_nat (lit_value i)) 0 with
          | Some vs => match call a vs (i_world q) with Ok (x, W) => match d with None => INext (set_world W q) | Some d => put_result d x (set_world W q) end | _ => IStuck end
          | None => IStuck end
      | _, _ => IStuck end = INext q') by (destruct d; exact Si).
  clear Si. destruct (lab l) as [a |]; [| discriminate Si']. destruct (i_args q) as [| slots r] eqn:Ea; [discriminate Si' |]. destruct (collect_args slots _ 0) as [vs |] eqn:Cv; [| discriminate Si']. destruct (call a vs (i_world q)) as [[x W'] | | | |] eqn:Cl; try discriminate Si'.
  exists a, slots, r, vs, x, W'. do 4 (split; [reflexivity || assumption |]). destruct d as [d |]; [| injection Si' as <-; repeat split; assumption]. unfold put_result in Si'. destruct d as [| sf rd | | | | |]; try discriminate Si'. destruct (suffix_size sf) as [z |] eqn:Ez; [| discriminate Si']. injection Si' as <-. repeat split; try assumption. exists sf, rd, z. repeat split. exact Ez.
Qed.
