(** A program does the same before and after its registers are allocated *)
From Verif Require Import Base MapModel SetModel ImmcModel X64Isa OpSpec X64Decode CSem ImmcSem ImmcProgram RegallocModel ElabProofs TypeProofs LabelSpec RegSpec RegProofs RegProofs2 RegProofs3 RegProofs4 RegProofs5.
From Verif Require Machine.
Open Scope Z_scope.

(** * Ranges of a function *)
Definition covers (fn : list immc) (l : list liveness) (off : Z) : Prop :=
  (forall p r, live fn p r -> used l r (off + Z.of_nat p)) /\ marked l fn off /\ ranges l (off + Z.of_nat (length fn)) /\
  (forall j y, nth_error l j = Some y -> exists k c w, nth_error fn k = Some c /\ writes c = Some w /\ Z.of_nat j <= w /\ first_def y = off + Z.of_nat k).
Lemma stops_tail fn : orderly fn -> ends_in_label fn = false.
Proof. intros O. unfold ends_in_label. destruct (last_error fn) as [c |] eqn:E; [| reflexivity]. apply (or_stops _ O) in E. destruct c; [reflexivity.. | discriminate E]. Qed.
Lemma tail_of fn : ends_in_label fn = false -> tail_ok fn.
Proof.
  intros T pre c ->. unfold ends_in_label in T. assert (X : last_error (pre ++ [c]) = Some c) by (eapply last_error_nth; [rewrite nth_error_app2 by apply le_n; rewrite Nat.sub_diag; reflexivity | rewrite app_length; cbn; lia]). rewrite X in T. destruct c; [reflexivity.. | discriminate T].
Qed.
Lemma connect_code fn g : tail_ok fn -> connect_basic_blocks (create_basic_blocks fn []) = Ok g -> code_of_blocks g = fn /\ good_graph g.
Proof.
  intros T H. destruct (blocks_ok fn []) as [E F]; [split; [intros k x X; destruct k; discriminate X | intros x []] | exact T |]. cbn in E.
  unfold connect_basic_blocks in H. destruct (connect_loop_ok _ _ _ _ _ H F) as [Ln A]. split.
  - rewrite <- E. apply same_code, map_immcs_eq; [exact Ln |]. intros k b' X. destruct (A _ _ X) as (b & B1 & _ & B2). exists b. split; [exact B1 | apply B2].
  - intros i b X. destruct (A _ _ X) as (b0 & _ & (S1 & S2 & S3 & _) & (Q1 & Q2 & Q3 & _)). split; [rewrite Q2, S2 | rewrite Q3, S3]; apply ISetProofs.inew_inv.
Qed.
Lemma skeleton_code g g' : skeleton g g' -> code_of_blocks g' = code_of_blocks g.
Proof.
  intros [L K]. apply same_code, map_immcs_eq; [exact L |]. intros k b' E. destruct (nth_error g k) as [b |] eqn:B; [exists b; split; [reflexivity | exact (proj1 (K _ _ _ B E))] |]. apply nth_error_None in B. assert (k < length g')%nat by (apply nth_error_Some; congruence). lia.
Qed.
Lemma fresh_used fn l off : fresh_loops fn -> marked l fn off -> forall p r, live fn p r -> used l r (off + Z.of_nat p).
Proof.
  intros F M p r L. induction L as [p c r E R | p q c r E W Fo L IH]; [exact (proj1 (M _ _ E) _ R) |].
  destruct Fo as (c' & E' & [[_ ->] | (n & G & La)]); [eapply used_le; [exact IH | lia] |]. destruct (Nat.le_gt_cases q p) as [H | H]; [destruct (F _ _ _ _ _ E' G La H L) | eapply used_le; [exact IH | lia]].
Qed.
(** where the ranges begin *)
Definition born (l l' : list liveness) (cs : list immc) (i : Z) : Prop :=
  forall j y, nth_error l' j = Some y -> (exists x, nth_error l j = Some x /\ first_def x = first_def y) \/ exists k c w, nth_error cs k = Some c /\ writes c = Some w /\ Z.of_nat j <= w /\ first_def y = i + Z.of_nat k.
Lemma set_use_born l r v l' : set_last_use l r v = Ok l' -> forall j y, nth_error l' j = Some y -> exists x, nth_error l j = Some x /\ first_def x = first_def y.
Proof.
  unfold set_last_use. intros H j y E. apply bind_ok in H as (x & X & H). apply at_Z_ok in X as [_ X]. apply deref_ok in H. destruct (Nat.eq_dec j (Z.to_nat r)) as [-> | N].
  - rewrite (list_set_nth _ _ _ _ H) in E. injection E as <-. exists x. auto.
  - rewrite (list_set_other _ _ _ _ _ H N) in E. eauto.
Qed.
Lemma use_born l o v l' : use_src l o v = Ok l' -> forall j y, nth_error l' j = Some y -> exists x, nth_error l j = Some x /\ first_def x = first_def y.
Proof. unfold use_src. destruct (src_reg o); [apply set_use_born |]. intros H j y E. injection H as <-. eauto. Qed.
Lemma immc_born l c i l' : liveness_immc l c i = Ok l' -> born l l' [c] i.
Proof.
  intros H j y E. destruct c as [t d f g | | |]; cbn [liveness_immc] in H; try (injection H as <-; eauto; fail).
  apply bind_ok in H as (l1 & H1 & H). apply bind_ok in H as (l2 & H2 & H).
  assert (B : forall x, nth_error l2 j = Some x -> exists x0, nth_error l j = Some x0 /\ first_def x0 = first_def x) by (intros x X; destruct (use_born _ _ _ _ H2 _ _ X) as (x1 & X1 & Q1); destruct (use_born _ _ _ _ H1 _ _ X1) as (x2 & X2 & Q2); exists x2; split; [exact X2 | congruence]).
  destruct d as [d |]; [| injection H as <-; left; auto]. destruct d; try (injection H as <-; left; auto; fail).
  - injection H as <-. unfold RegallocModel.fill in E. destruct (Nat.lt_ge_cases j (length l2)) as [L | L]; [rewrite nth_error_app1 in E by exact L; left; auto |]. rewrite nth_error_app2 in E by exact L. assert (Y : y = new_liveness i) by (eapply repeat_spec, nth_error_In, E). apply nth_len in E. rewrite repeat_length in E. right. exists O, (IMMC_INST t (Some (IMMC_OPERAND_REG s r)) f g), (reg_id r). split; [reflexivity |]. split; [reflexivity |]. split; [lia |]. subst y. cbn. lia.
  - destruct (set_use_born _ _ _ _ H _ _ E) as (x & X & Q). destruct (B _ X) as (x0 & X0 & Q0). left. exists x0. split; [exact X0 | congruence].
Qed.
Lemma immcs_born : forall cs l i l', liveness_immcs l cs i = Ok l' -> born l l' cs i.
Proof.
  induction cs as [| c cs IH]; intros l i l' H; cbn [liveness_immcs] in H.
  - injection H as <-. intros j y E. eauto.
  - apply bind_ok in H as (l1 & H1 & H). intros j y E. destruct (IH _ _ _ H _ _ E) as [(x & X & Q) | (k & c' & w & A & B & L & Q)].
    + destruct (immc_born _ _ _ _ H1 _ _ X) as [(x0 & X0 & Q0) | (k & c' & w & A & B & L & Q0)]; [left; exists x0; split; [exact X0 | congruence] |]. destruct k; [| destruct k; discriminate A]. right. exists O, c', w. cbn in A. cbn. split; [exact A |]. split; [exact B |]. split; [exact L |]. rewrite <- Q, Q0. cbn. reflexivity.
    + right. exists (S k), c', w. split; [exact A |]. split; [exact B |]. split; [exact L |]. rewrite Q. lia.
Qed.
Lemma use_all_born : forall rs l v l', use_all l rs v = Ok l' -> forall j y, nth_error l' j = Some y -> exists x, nth_error l j = Some x /\ first_def x = first_def y.
Proof.
  induction rs as [| r rs IH]; intros l v l' H j y E; cbn [use_all] in H; [injection H as <-; eauto |]. apply bind_ok in H as (l1 & H1 & H). destruct (IH _ _ _ H _ _ E) as (x & X & Q). destruct (set_use_born _ _ _ _ H1 _ _ X) as (x0 & X0 & Q0). exists x0. split; [exact X0 | congruence].
Qed.
Lemma analyze_born : forall g l off l', analyze_register_liveness l g off = Ok l' -> born l l' (code_of_blocks g) off.
Proof.
  unfold code_of_blocks. induction g as [| b g IH]; intros l off l' H; cbn [analyze_register_liveness] in H.
  - injection H as <-. intros j y E. eauto.
  - apply bind_ok in H as (l1 & H1 & H). unfold update_register_liveness in H1. apply bind_ok in H1 as (l0 & H0 & H1). intros j y E. cbn [flat_map]. destruct (IH _ _ _ H _ _ E) as [(x & X & Q) | (k & c & w & A & B & L & Q)].
    + destruct (use_all_born _ _ _ _ H1 _ _ X) as (x1 & X1 & Q1). destruct (immcs_born _ _ _ _ H0 _ _ X1) as [(x0 & X0 & Q0) | (k & c & w & A & B & L & Q0)]; [left; exists x0; split; [exact X0 | congruence] |].
      right. exists k, c, w. split; [rewrite nth_error_app1 by (eapply nth_len, A); exact A |]. split; [exact B |]. split; [exact L | congruence].
    + right. exists (length (b_immcs b) + k)%nat, c, w. split; [rewrite nth_error_app2 by lia; replace (length (b_immcs b) + k - length (b_immcs b))%nat with k by lia; exact A |]. split; [exact B |]. split; [exact L |]. rewrite Q. lia.
Qed.
Lemma function_covers fn g g' fuel off l : orderly fn -> NoDup (labels fn) ->
  connect_basic_blocks (create_basic_blocks fn []) = Ok g -> analyze_register_flow fuel g = Ok g' -> analyze_register_liveness [] g' off = Ok l -> covers fn l off.
Proof.
  intros O N C F A. assert (T := stops_tail _ O). destruct (connect_code _ _ (tail_of _ T) C) as [E Gg]. destruct (flow_ok _ _ _ F Gg) as (_ & K & _). apply skeleton_code in K. destruct (analyze_ok _ _ _ _ A (no_ranges off)) as (R & _ & M & _). assert (Bo := analyze_born _ _ _ _ A). rewrite K, E in R, M, Bo.
  split; [| split; [exact M |]; split; [exact R |]].
  - destruct (or_loops _ O) as [Nl | Fl]; [| now apply fresh_used]. apply (liveness_sound _ _ _ _ _ _ T N Nl C F A).
  - intros j y Y. destruct (Bo _ _ Y) as [(x & X & _) | X]; [destruct j; discriminate X | exact X].
Qed.
(** a written register shares with no other one that is live *)
Lemma no_clash fn l off n allocs p c s r k : orderly fn -> covers fn l off -> determine_allocation l n = Ok allocs -> (forall i k, (i < length l)%nat -> nth_error allocs i = Some k -> 0 <= k) ->
  nth_error fn p = Some c -> writes c = Some s -> goes_on c = true -> live fn (S p) r -> r <> s -> 0 <= s -> nth_error allocs (Z.to_nat s) = Some k -> nth_error allocs (Z.to_nat r) <> Some k.
Proof.
  intros O (L & M & R & Bo) D All E W G Lr N S0 Ks Kr. assert (Ls := or_needed _ O _ _ _ _ E W Lr N). assert (Lp : live fn p r) by (eapply live_later; [exact E | congruence | exists c; eauto | exact Lr]).
  destruct (allocation_ok _ _ _ _ R D) as (La & _ & Ap).
  destruct (L _ _ Lr) as (R0 & y & Y & Yu). destruct (proj2 (M _ _ E) _ W S0) as (x & X & Xd).
  assert (Xu : off + Z.of_nat p <= last_use x).
  { destruct Ls as [Ls | New]; [destruct (L _ _ Ls) as (_ & x' & X' & Xu); assert (x' = x) by congruence; subst x'; lia |]. destruct (Bo _ _ X) as (q & c' & w & Q1 & Q2 & Q3 & Q4). assert (Le := r_le _ _ R _ _ X).
    destruct (Nat.lt_ge_cases q p) as [Lq | Lq]; [specialize (New _ _ _ Lq Q1 Q2); lia | lia]. }
  destruct (or_written _ O _ _ Lp) as (q & cq & Lq & Eq & Wq). destruct (proj2 (M _ _ Eq) _ Wq R0) as (y' & Y' & Yd). assert (y' = y) by congruence. subst y'.
  assert (0 <= k) by (eapply All; [eapply nth_len, X | exact Ks]).
  destruct (Z.lt_trichotomy r s) as [Lt | [Q | Lt]]; [| congruence |].
  - specialize (Ap (Z.to_nat r) (Z.to_nat s) k y x ltac:(lia) Kr Ks H Y X). lia.
  - specialize (Ap (Z.to_nat s) (Z.to_nat r) k x y ltac:(lia) Ks Kr H X Y). lia.
Qed.

(** * Running a function *)
Lemma put_goto d v q n q1 : put_result d v q <> IGoto n q1.
Proof. unfold put_result. destruct d; try discriminate. destruct (suffix_size s); discriminate. Qed.
Lemma istep_goto call lab frame params c q n q1 : istep call lab frame params c q = IGoto n q1 -> goes_to c = Some n /\ writes c = None /\ q1 = q.
Proof.
  intros H. destruct c as [t d f g | | |]; try discriminate H. destruct t, d as [d |], f as [f |], g as [g |]; try discriminate H; try (destruct d; discriminate H);
    cbn [istep] in H; repeat (match type of H with context [match ?y with _ => _ end] => destruct y end; try discriminate H; try (injection H as <- <-; auto; fail)).
  all: destruct (put_goto _ _ _ _ _ H).
Qed.
Lemma istep_next call lab frame params c q q1 : istep call lab frame params c q = INext q1 -> goes_on c = true.
Proof. intros H. destruct c as [t d f g | | |]; try reflexivity. destruct t; try reflexivity; exfalso; destruct d as [d |], f as [f |], g as [g |]; cbn [istep binop] in H; try discriminate H; repeat (match type of H with context [match ?y with _ => _ end] => destruct y end; try discriminate H). Qed.
Lemma istep_calls call call' lab frame params c q : (forall a vs W r, call a vs W = Ok r -> call' a vs W = Ok r) -> istep call lab frame params c q <> IStuck -> istep call' lab frame params c q = istep call lab frame params c q.
Proof.
  intros H N. destruct c as [t d f g | | |]; try reflexivity. destruct t; try reflexivity. destruct d as [d |], f as [f |], g as [g |]; try reflexivity; destruct g; try reflexivity; cbn [istep] in *.
  - destruct (iaddress lab frame q f); [| reflexivity]. destruct (i_args q); [reflexivity |]. destruct (collect_args _ _ 0); [| reflexivity]. destruct (call z l0 (i_world q)) as [[x W] | | | |] eqn:E; [now rewrite (H _ _ _ _ E) | now destruct N..].
  - destruct (iaddress lab frame q f); [| reflexivity]. destruct (i_args q); [reflexivity |]. destruct (collect_args _ _ 0); [| reflexivity]. destruct (call z l0 (i_world q)) as [[x W] | | | |] eqn:E; [now rewrite (H _ _ _ _ E) | now destruct N..].
Qed.
Lemma allocated_length allocs : forall l l', gen_allocated_immcs allocs l = Ok l' -> length l' = length l /\ forall p c, nth_error l p = Some c -> exists c', nth_error l' p = Some c' /\ alloc_immc allocs c = Ok c'.
Proof.
  induction l as [| c l IH]; intros l' H; cbn [gen_allocated_immcs] in H.
  - injection H as <-. split; [reflexivity |]. intros p c E. destruct p; discriminate E.
  - apply bind_ok in H as (c' & Hc & H). apply bind_ok in H as (r & Hr & H). injection H as <-. destruct (IH _ Hr) as [L A]. split; [cbn; lia |]. intros [| p] x E; [injection E as <-; exists c'; auto | exact (A _ _ E)].
Qed.
Definition same_label (c c' : immc) : Prop := match c with IMMC_INST _ _ _ _ => match c' with IMMC_INST _ _ _ _ => (writes c = None -> reads c = [] -> c' = c) | _ => False end | _ => c' = c end.
Lemma alloc_none allocs o x : alloc_ope allocs o = Ok x -> operand_register o = [] -> x = o.
Proof. intros H N. destruct o as [o |]; [destruct o; try discriminate N; cbn in H; congruence | cbn in H; congruence]. Qed.
Lemma alloc_label allocs c c' : alloc_immc allocs c = Ok c' -> same_label c c'.
Proof.
  destruct c as [t d f g | | |]; cbn [alloc_immc]; intros H; try (cbn; congruence). apply bind_ok in H as (f' & Hf & H). apply bind_ok in H as (g' & Hg & H). apply bind_ok in H as (d' & Hd & H). injection H as <-. cbn [same_label reads]. intros W R. apply app_eq_nil in R as [R1 R]. apply app_eq_nil in R as [R2 R3].
  rewrite (alloc_none _ _ _ Hf R1), (alloc_none _ _ _ Hg R2). f_equal. eapply alloc_none; [exact Hd |]. destruct d as [d |]; [| reflexivity]. destruct d; try reflexivity; [discriminate W | discriminate R3].
Qed.
Lemma same_label_refl c : same_label c c.
Proof. destruct c; cbn; auto. Qed.
Lemma label_at_same n : forall l l', Forall2 same_label l l' -> label_at n l' = label_at n l.
Proof. induction 1 as [| c c' l l' S F IH]; [reflexivity |]. destruct c; cbn in S; subst; cbn; try (now rewrite IH). destruct c'; [cbn; now rewrite IH | destruct S..]. Qed.
Lemma allocated_labels allocs : forall l l', gen_allocated_immcs allocs l = Ok l' -> Forall2 same_label l l'.
Proof.
  induction l as [| c l IH]; intros l' H; cbn [gen_allocated_immcs] in H; [injection H as <-; constructor |]. apply bind_ok in H as (c' & Hc & H). apply bind_ok in H as (r & Hr & H). injection H as <-. constructor; [eapply alloc_label, Hc | now apply IH].
Qed.
Lemma label_at_app n : forall A B, label_at n (A ++ B) = match label_at n A with Some p => Some p | None => option_map (fun p => (length A + p)%nat) (label_at n B) end.
Proof.
  induction A as [| c A IH]; intros B; [cbn; destruct (label_at n B); reflexivity |]. cbn [app length].
  assert (X : option_map S (label_at n (A ++ B)) = match option_map S (label_at n A) with Some p => Some p | None => option_map (fun p => (S (length A) + p)%nat) (label_at n B) end).
  { rewrite IH. destruct (label_at n A); [reflexivity |]. destruct (label_at n B); reflexivity. }
  destruct c; cbn [label_at]; try exact X. destruct (name_eqb n n0); [reflexivity | exact X].
Qed.
Lemma label_in : forall n l p, label_at n l = Some p -> In n (labels l).
Proof. intros n l p H. destruct (label_at_nth _ _ _ H) as (t & v & E). apply nth_error_In in E. unfold labels. apply in_flat_map. eexists. split; [exact E | now left]. Qed.
Lemma label_local A fn B n p : NoDup (labels (A ++ fn ++ B)) -> label_at n fn = Some p -> label_at n (A ++ fn ++ B) = Some (length A + p)%nat.
Proof.
  intros N L. rewrite label_at_app. destruct (label_at n A) as [q |] eqn:E.
  - exfalso. apply label_in in E, L. unfold labels in *. rewrite !flat_map_app in N. revert N E L. generalize (flat_map label_of A), (flat_map label_of fn), (flat_map label_of B). clear. intros a f b N E L. induction a as [| x a IH]; [destruct E |]. cbn in N. inversion N as [| ? ? N1 N2]; subst. destruct E as [-> | E]; [apply N1; rewrite !in_app_iff; auto | auto].
  - rewrite label_at_app, L. reflexivity.
Qed.
Section Run.
Variables (call call' : caller) (lab : name -> option Z) (frame : Z) (params : list (size * Z)).
Hypothesis calls : forall a vs W r, call a vs W = Ok r -> call' a vs W = Ok r.
Variables (A fn B A' fn' B' : list immc) (l : list liveness) (off : Z) (n : nat) (allocs : list Z).
Hypotheses (Or : orderly fn) (Cv : covers fn l off) (Da : determine_allocation l n = Ok allocs) (All : forall i k, (i < length l)%nat -> nth_error allocs i = Some k -> 0 <= k)
  (Ga : gen_allocated_immcs allocs fn = Ok fn') (La : length A' = length A) (ND : NoDup (labels (A ++ fn ++ B))) (Sm : Forall2 same_label (A ++ fn ++ B) (A' ++ fn' ++ B')).
Lemma run_function : forall k p q q' q1, (p < length fn)%nat -> peers q q' -> (forall r v, live fn p r -> i_regs q r = Some v -> exists k, 0 <= r /\ nth_error allocs (Z.to_nat r) = Some k /\ i_regs q' k = Some v) ->
  irun call lab frame params k (A ++ fn ++ B) (length A + p) q = IEnd q1 -> exists q1', irun call' lab frame params k (A' ++ fn' ++ B') (length A + p) q' = IEnd q1' /\ peers q1 q1'.
Proof.
  induction k as [| k IH]; intros p q q' q1 Lp P K H; [discriminate H |]. cbn [irun] in *. unfold imove in *. destruct (allocated_length _ _ _ Ga) as [Lf Nf].
  rewrite nth_error_app2 in H by lia. rewrite nth_error_app1 in H by lia. rewrite nth_error_app2 by lia. rewrite La, nth_error_app1 by lia. replace (length A + p - length A)%nat with p in * by lia.
  destruct (nth_error fn p) as [c |] eqn:E; [| apply nth_error_None in E; lia]. destruct (Nf _ _ E) as (c' & E' & Ac). rewrite E'.
  assert (S1 := istep_along call lab frame params allocs c c' q q' Ac P ltac:(intros r v I; apply K; eapply live_read; eauto)).
  destruct (istep call lab frame params c q) as [q2 | m q2 | q2 |] eqn:Is; [| | | discriminate H]; cbn [along] in S1.
  - (* next *)
    destruct S1 as (q2' & I2 & P2 & Rg). rewrite (istep_calls call call') by (auto; congruence). rewrite I2. assert (Go := istep_next _ _ _ _ _ _ _ Is).
    assert (Lp' : (S p < length fn)%nat). { destruct (Nat.eq_dec (S p) (length fn)) as [Q | Q]; [| lia]. assert (X := or_stops _ Or c (last_error_nth _ _ _ E Q)). congruence. }
    replace (S (length A + p)) with (length A + S p)%nat in * by lia. eapply (IH (S p) q2 q2' q1 Lp' P2); [| exact H].
    intros r v Lr Vr. destruct Rg as [(R1 & R2 & Wn) | (s & ks & w & Ws & S0 & Ks & R1 & R2)].
    + rewrite R1 in Vr. rewrite R2. apply K; [| exact Vr]. eapply live_later; [exact E | congruence | exists c; eauto | exact Lr].
    + rewrite R1 in Vr. rewrite R2. unfold upd in *. destruct (r =? s) eqn:Q.
      * apply Z.eqb_eq in Q. subst r. exists ks. rewrite Z.eqb_refl. auto.
      * apply Z.eqb_neq in Q. destruct (K r v) as (kr & R0 & Nr & Vr'); [eapply live_later; [exact E | congruence | exists c; eauto | exact Lr] | exact Vr |].
        exists kr. split; [exact R0 |]. split; [exact Nr |]. destruct (kr =? ks) eqn:Qk; [| exact Vr']. apply Z.eqb_eq in Qk. subst kr. destruct (no_clash _ _ _ _ _ _ _ _ _ _ Or Cv Da All E Ws Go Lr Q S0 Ks Nr).
  - (* jump *)
    destruct S1 as (q2' & I2 & -> & ->). rewrite (istep_calls call call') by (auto; congruence). rewrite I2. destruct (istep_goto _ _ _ _ _ _ _ _ Is) as (Gt & Wn & _).
    destruct (label_at m fn) as [t |] eqn:Lt; [| destruct (or_local _ Or c m); [eapply nth_error_In, E | exact Gt | exact Lt]].
    rewrite (label_at_same m _ _ Sm). rewrite (label_local _ _ _ _ _ ND Lt) in *. assert (Lt' : (t < length fn)%nat) by (destruct (label_at_nth _ _ _ Lt) as (? & ? & X); eapply nth_len, X).
    eapply (IH t q q' q1 Lt' P); [| exact H]. intros r v Lr Vr. apply K; [| exact Vr]. eapply live_later; [exact E | congruence | exists c; split; [exact E | right; eauto] | exact Lr].
  - destruct S1 as (q2' & I2 & P2). rewrite (istep_calls call call') by (auto; congruence). rewrite I2. injection H as <-. eauto.
Qed.
End Run.

(** * Functions of a program *)
Lemma span_ok : forall l a b, span_external l = (a, b) -> l = a ++ b /\ Forall (fun c => external c = false) a /\ (forall c r, b = c :: r -> external c = true).
Proof.
  induction l as [| c l IH]; intros a b H; cbn [span_external] in H.
  - injection H as <- <-. split; [reflexivity |]. split; [constructor | discriminate].
  - destruct (is_external_label c) eqn:E.
    + injection H as <- <-. split; [reflexivity |]. split; [constructor |]. intros x r X. injection X as <- <-. destruct c; try discriminate E. exact E.
    + destruct (span_external l) as [a0 b0]. injection H as <- <-. destruct (IH _ _ eq_refl) as (A & B & C). split; [cbn; congruence |]. split; [constructor; [| exact B] | exact C]. destruct c; try reflexivity. exact E.
Qed.
Lemma span_unique : forall a a' b b', a ++ b = a' ++ b' -> Forall (fun c => external c = false) a -> Forall (fun c => external c = false) a' -> (forall c r, b = c :: r -> external c = true) -> (forall c r, b' = c :: r -> external c = true) -> a = a' /\ b = b'.
Proof.
  induction a as [| x a IH]; intros [| y a'] b b' E F F' B B'; cbn in E.
  - auto.
  - subst b. specialize (B _ _ eq_refl). apply Forall_inv in F'. congruence.
  - subst b'. specialize (B' _ _ eq_refl). apply Forall_inv in F. congruence.
  - injection E as -> E. destruct (IH _ _ _ E (Forall_inv_tail F) (Forall_inv_tail F') B B') as [-> ->]. auto.
Qed.
Lemma after_span : forall a A x r rest, A ++ x :: r = a ++ rest -> Forall (fun c => external c = false) a -> external x = true -> exists A2, A = a ++ A2 /\ rest = A2 ++ x :: r.
Proof.
  induction a as [| c a IH]; intros A x r rest E F X; [exists A; auto |]. destruct A as [| c' A]; cbn in E; injection E as -> E; [apply Forall_inv in F; congruence |].
  destruct (IH _ _ _ _ E (Forall_inv_tail F) X) as (A2 & -> & ->). exists A2. auto.
Qed.
Lemma Forall2_refl {A} (R : A -> A -> Prop) : (forall x, R x x) -> forall l, Forall2 R l l.
Proof. intros H l. induction l; constructor; auto. Qed.
Lemma Forall2_len {A B} (R : A -> B -> Prop) l l' : Forall2 R l l' -> length l' = length l.
Proof. induction 1; cbn; congruence. Qed.
Lemma function_labels n fn off seqs fn' seqs' : allocate_function n fn off seqs = Ok (fn', seqs') -> Forall2 same_label fn fn'.
Proof.
  unfold allocate_function. intros H. apply bind_ok in H as (g & _ & H). apply bind_ok in H as (g' & _ & H). apply bind_ok in H as (lv & _ & H). apply bind_ok in H as (al & _ & H). apply bind_ok in H as (cs & Hc & H). apply bind_ok in H as (sq & _ & H). injection H as <- <-. eapply allocated_labels, Hc.
Qed.
Lemma loop_pieces n : forall f l off seqs l' seqs', allocate_loop_ext f n l off seqs = Ok (l', seqs') -> Forall2 same_label l l' /\
  forall A fn B, l = A ++ fn ++ B -> (exists v m body, fn = IMMC_LABEL IMMC_LABEL_FUNCTION v m :: body /\ Forall (fun c => external c = false) body) -> (forall b B', B = b :: B' -> external b = true) ->
  exists A' fn' B' o s1 s2, l' = A' ++ fn' ++ B' /\ length A' = length A /\ allocate_function n fn o s1 = Ok (fn', s2).
Proof.
  induction f as [| f IH]; intros l off seqs l' seqs' H.
  - destruct l as [| c l]; [| discriminate H]. injection H as <- <-. split; [constructor |]. intros A fn B E (v & m & body & -> & _) _. destruct A; discriminate E.
  - destruct l as [| c l]; cbn [allocate_loop_ext] in H; [injection H as <- <-; split; [constructor |]; intros A fn B E (v & m & body & -> & _) _; destruct A; discriminate E |].
    destruct (span_external l) as [a rest] eqn:Sp. destruct (span_ok _ _ _ Sp) as (El & Fa & Hr). destruct c as [| | | t v m]; try discriminate H. apply bind_ok in H as ((cs, s1) & Hc & H). apply bind_ok in H as ((cs', s2) & Hl & H). injection H as <- <-.
    destruct (IH _ _ _ _ _ Hl) as [F2 Pc].
    assert (F1 : Forall2 same_label (IMMC_LABEL t v m :: a) cs) by (destruct t; [eapply function_labels, Hc | injection Hc as <- _; apply Forall2_refl, same_label_refl..]).
    subst l. split; [exact (Forall2_app F1 F2) |].
    intros A fn B E Sh Hb. destruct Sh as (v0 & m0 & body & Ef & Fb). subst fn. destruct A as [| x A].
    + cbn in E. injection E as -> -> -> E. destruct (span_unique _ _ _ _ E Fa Fb Hr Hb) as [-> ->]. exists [], cs, cs', off, seqs, s1. auto.
    + cbn in E. injection E as <- E. symmetry in E. destruct (after_span _ _ _ _ _ E Fa) as (A2 & -> & E2); [reflexivity |]. rewrite app_comm_cons in E2.
      destruct (Pc A2 (IMMC_LABEL IMMC_LABEL_FUNCTION v0 m0 :: body) B E2 ltac:(eauto) Hb) as (A' & fn' & B' & o & q1 & q2 & -> & L & Al). exists (cs ++ A'), fn', B', o, q1, q2. rewrite <- app_assoc. split; [reflexivity |]. split; [| exact Al].
      rewrite app_length, (Forall2_len _ _ _ F1), L. cbn. rewrite app_length. lia.
Qed.
Lemma functions_same : forall l l', Forall2 same_label l l' -> functions l' = functions l.
Proof. induction 1 as [| c c' l l' S F IH]; [reflexivity |]. destruct c; cbn in S; subst; cbn; rewrite ?IH; try reflexivity. destruct c'; [reflexivity || exact IH | destruct S..]. Qed.
Lemma take_same : forall l l', Forall2 same_label l l' -> take_data l' = take_data l.
Proof. induction 1 as [| c c' l l' S F IH]; [reflexivity |]. destruct c; cbn in S; subst; cbn [take_data]; rewrite ?IH; try reflexivity. destruct c'; [reflexivity | destruct S..]. Qed.
Lemma variables_same : forall l l', Forall2 same_label l l' -> variables l' = variables l.
Proof. induction 1 as [| c c' l l' S F IH]; [reflexivity |]. destruct c; cbn in S; subst; cbn [variables]; rewrite ?IH, ?(take_same _ _ F); try reflexivity. destruct c'; [reflexivity || exact IH | destruct S..]. Qed.
Lemma Forall2_at {A B} (R : A -> B -> Prop) : forall l l', Forall2 R l l' -> forall i x, nth_error l i = Some x -> exists y, nth_error l' i = Some y /\ R x y.
Proof. induction 1 as [| x y l l' R0 F IH]; intros i z E; destruct i as [| i]; try discriminate E; [injection E as <-; exists y; auto | exact (IH i z E)]. Qed.
Lemma function_nth : forall C f, In f (functions C) -> exists p v, nth_error C p = Some (IMMC_LABEL IMMC_LABEL_FUNCTION v f).
Proof.
  induction C as [| c C IH]; intros f I; [destruct I |]. cbn [functions] in I. assert (X : In f (functions C) -> exists p v, nth_error (c :: C) p = Some (IMMC_LABEL IMMC_LABEL_FUNCTION v f)) by (intros J; destruct (IH _ J) as (p & v & E); exists (S p), v; exact E).
  destruct c; auto. destruct t; auto. destruct I as [<- | I]; [exists O, v; reflexivity | auto].
Qed.
Lemma NoDup_r {A} (a b : list A) : NoDup (a ++ b) -> NoDup b.
Proof. induction a as [| x a IH]; [auto |]. intros N. inversion N. auto. Qed.
Lemma NoDup_l {A} (a b : list A) : NoDup (a ++ b) -> NoDup a.
Proof. induction a as [| x a IH]; [constructor |]. intros N. inversion N as [| ? ? N1 N2]. constructor; [intros X; apply N1, in_or_app; now left | auto]. Qed.
Section Program.
Variables (exts : list name) (ext : name -> list Z -> world -> option (Z * world)) (C C' : list immc) (n : nat) (seqs seqs' : list liveseq) (off : Z) (fl : nat).
Hypotheses (H : allocate_loop_ext fl n C off seqs = Ok (C', seqs')) (ND : NoDup (labels C)) (Od : orderly_program C).
Lemma ilabel_same m : ilabel exts C' m = ilabel exts C m.
Proof. destruct (loop_pieces _ _ _ _ _ _ _ H) as [S _]. unfold ilabel, fnames. now rewrite (variables_same _ _ S), (functions_same _ _ S). Qed.
Lemma irun_lab call lab lab' frame params code : (forall m, lab m = lab' m) -> forall k p q, irun call lab frame params k code p q = irun call lab' frame params k code p q.
Proof.
  intros L. assert (Ad : forall q o, iaddress lab frame q o = iaddress lab' frame q o) by (intros q o; destruct o; cbn; auto).
  assert (St : forall c q, istep call lab frame params c q = istep call lab' frame params c q).
  { intros c q. destruct c as [t d f g | | |]; try reflexivity. destruct t; try reflexivity; destruct d as [d |], f as [f |], g as [g |]; try reflexivity; cbn [istep]; rewrite ?Ad; reflexivity. }
  induction k as [| k IH]; intros p q; [reflexivity |]. cbn [irun]. unfold imove. destruct (nth_error code p) as [c |]; [| reflexivity]. rewrite St. destruct (istep call lab' frame params c q); auto. destruct (label_at n0 code); auto.
Qed.
Lemma allocated_call k : forall fuel sp a args W r, icall exts ext C k fuel sp a args W = Ok r -> icall exts ext C' k fuel sp a args W = Ok r.
Proof.
  destruct (loop_pieces _ _ _ _ _ _ _ H) as [Sm Pc]. induction fuel as [| fuel IH]; intros sp a args W r R; [discriminate R |]. cbn [icall] in *. destruct (Machine.EXT_BASE <=? a); [exact R |].
  unfold fnames in *. rewrite (functions_same _ _ Sm). destruct (if a <? Machine.CODE_BASE then None else nth_error (rev (functions C)) (Z.to_nat (a - Machine.CODE_BASE))) as [f |] eqn:Ef; [| discriminate R].
  assert (If : In f (functions C)). { destruct (a <? Machine.CODE_BASE); [discriminate Ef |]. apply in_rev. eapply nth_error_In, Ef. }
  rewrite (label_at_same f _ _ Sm). destruct (label_at f C) as [p |] eqn:Lp; [| discriminate R].
  destruct (frame_of C p) as [z |] eqn:Fz; [| discriminate R].
  assert (Fz' : frame_of C' p = Some z).
  { unfold frame_of in *. destruct (nth_error C (S p)) as [c |] eqn:Ec; [| discriminate Fz]. destruct (Forall2_at _ _ _ Sm _ _ Ec) as (c' & Ec' & Sc). rewrite Ec'. destruct c as [t d g h | | |]; try discriminate Fz. destruct t; try discriminate Fz. destruct d; [discriminate Fz |]. destruct g as [g |]; [| discriminate Fz]. destruct g; try discriminate Fz. destruct h; [discriminate Fz |].
    cbn in Sc. destruct c'; try (destruct Sc; fail). specialize (Sc eq_refl eq_refl). injection Sc as -> -> -> ->. exact Fz. }
  rewrite Fz'. destruct (function_nth _ _ If) as (p' & v & Np). destruct (label_at_nth _ _ _ Lp) as (ty & v' & Np'). assert (p' = p) by (eapply label_once; eauto). subst p'. clear Np'.
  (* the function *)
  destruct (nth_error_split _ _ Np) as (A & R0 & EC & LA). destruct (span_external R0) as [body B] eqn:Sp. destruct (span_ok _ _ _ Sp) as (Er & Fb & Hb). set (fn := IMMC_LABEL IMMC_LABEL_FUNCTION v f :: body) in *.
  assert (EC' : C = A ++ fn ++ B) by (rewrite EC, Er; reflexivity).
  assert (Sh : exists v0 m0 body0, fn = IMMC_LABEL IMMC_LABEL_FUNCTION v0 m0 :: body0 /\ Forall (fun c => external c = false) body0) by (exists v, f, body; auto).
  assert (Or : orderly fn) by (apply Od; exists A, B; auto).
  destruct (Pc A fn B EC' Sh Hb) as (A' & fn' & B' & o & s1 & s2 & ECa & LA' & Af).
  unfold allocate_function in Af. apply bind_ok in Af as (g & Hg & Af). apply bind_ok in Af as (g' & Hg' & Af). apply bind_ok in Af as (lv & Hlv & Af). apply bind_ok in Af as (al & Hal & Af). apply bind_ok in Af as (cs & Hcs & Af). apply bind_ok in Af as (sq & Hsq & Af). injection Af as -> ->.
  assert (NDf : NoDup (labels fn)) by (clear -ND EC'; rewrite EC' in ND; unfold labels in *; rewrite !flat_map_app in ND; exact (NoDup_l _ _ (NoDup_r _ _ ND))).
  assert (Cv := function_covers _ _ _ _ _ _ Or NDf Hg Hg' Hlv). destruct (liveseqs_ok _ _ _ _ Hsq) as [_ All].
  match type of R with match ?x with _ => _ end = _ => destruct x as [? ? | q1 |] eqn:Run; try discriminate R end.
  rewrite EC' in Run. replace p with (length A + 0)%nat in Run by lia.
  assert (ND' := ND). rewrite EC' in ND'. assert (Sm' := Sm). rewrite EC', ECa in Sm'.
  destruct (run_function (icall exts ext C k fuel (sp - z - 64)) (icall exts ext C' k fuel (sp - z - 64)) (ilabel exts C) sp args (fun a0 vs W0 r0 => IH _ a0 vs W0 r0) A fn B A' fn' B' lv o n al Or Cv Hal All Hcs LA' ND' Sm' k 0%nat (mkist (fun _ => None) [] None W) (mkist (fun _ => None) [] None W) q1) as (q1' & Run' & P1 & P2 & P3).
  - subst fn. cbn. lia.
  - repeat split; reflexivity.
  - intros r0 v0 _ X. discriminate X.
  - rewrite <- EC' in *. exact Run.
  - rewrite <- ECa in Run'. replace (length A + 0)%nat with p in Run' by lia. rewrite (irun_lab _ _ (ilabel exts C)) by apply ilabel_same. rewrite Run', P2, P3. exact R.
Qed.
Theorem allocated_program k fuel r : irun_program exts ext C k fuel = Ok r -> irun_program exts ext C' k fuel = Ok r.
Proof.
  unfold irun_program. destruct (loop_pieces _ _ _ _ _ _ _ H) as [Sm _]. rewrite ilabel_same, (variables_same _ _ Sm). cbv zeta. destruct (ilabel exts C (bytes "main")) as [a |]; [| auto]. intros R. apply bind_ok in R as ((x, W) & Hc & R). rewrite (allocated_call _ _ _ _ _ _ _ Hc). exact R.
Qed.
End Program.
Theorem allocation_preserves exts ext C C' n seqs k fuel r : allocate_regs n C = Ok (C', seqs) -> NoDup (labels C) -> orderly_program C -> irun_program exts ext C k fuel = Ok r -> irun_program exts ext C' k fuel = Ok r.
Proof. unfold allocate_regs. intros H N O. exact (allocated_program exts ext C C' n _ _ _ _ H N O k fuel r). Qed.
