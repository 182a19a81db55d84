(** C44: the callee-saved registers are restored *)
From Coq Require Import Lia ZifyBool.
From Verif Require Import Base ElabProofs SrtModel ResolverModel ImmcModel ImmcgenModel RegallocModel X64Model X64Decode X64genModel OpSpec IsaProofs IsaMemProofs X64genProofs LabelSpec CallSpec CallProofs CallProofs2 CallProofs3 CallProofs4 CallProofs5 CallProofs6 CallProofs7 X64Isa.
Local Open Scope Z_scope.
Local Open Scope bool_scope.
Ltac splits := repeat match goal with |- _ /\ _ => split end.

(** * Straight-line parts *)
Lemma runs_cons e c l m m' : runs e (c :: l) m (Next m') -> exists m1, runs e [c] m (Next m1) /\ runs e l m1 (Next m').
Proof.
  intros H. destruct (runs_app_inv e [c] l m _ H) as (la & lb & A & B & E). destruct (exec_list e la m) as [m1 | | | | |] eqn:X; try discriminate E. exists m1. split; [exists la; auto | exists lb; auto].
Qed.
Lemma runs_split e a b m m' : runs e (a ++ b) m (Next m') -> exists m1, runs e a m (Next m1) /\ runs e b m1 (Next m').
Proof.
  intros H. destruct (runs_app_inv e a b m _ H) as (la & lb & A & B & E). destruct (exec_list e la m) as [m1 | | | | |] eqn:X; try discriminate E. exists m1. split; [exists la; auto | exists lb; auto].
Qed.
Lemma runs_nil e m m' : runs e [] m (Next m') -> m' = m.
Proof. intros (l & A & B). injection A as <-. injection B as <-. reflexivity. Qed.
Lemma runs_inst e t s d m m' : runs e [X64_INST t s d] m (Next m') -> exists i, decode t s d = Some i /\ exec e i m = Next m'.
Proof. intros (l & A & B). cbn in A. destruct (decode t s d) as [i |]; [| discriminate A]. injection A as <-. exists i. split; [reflexivity |]. cbn in B. destruct (exec e i m); congruence. Qed.
Lemma flat_in l c : flat l -> In c l -> xlabel c = [] /\ xtarget c = [] /\ xcall c = false /\ sane c /\ xret c = false.
Proof.
  intros (A & B & C & D & E) I. rewrite Forall_forall in D, E. splits; auto; apply in_split in I as (l1 & l2 & ->).
  - specialize (A 0). rewrite xlabels_app in A. apply app_eq_nil in A as [_ A]. cbn [xlabels] in A. apply app_eq_nil in A as [A _]. destruct (xlabel c); [reflexivity | discriminate A].
  - specialize (B 0). rewrite xjumps_app in B. apply app_eq_nil in B as [_ A0]. cbn [xjumps] in A0. apply app_eq_nil in A0 as [A0 _]. destruct (xtarget c); [reflexivity | discriminate A0].
  - specialize (C 0). rewrite xcalls_app in C. apply app_eq_nil in C as [_ A0]. cbn [xcalls] in A0. apply app_eq_nil in A0 as [A0 _]. destruct (xcall c); [discriminate A0 | reflexivity].
Qed.
Lemma straight_step e F p m b c : step e F (p, m) b -> nth_error F p = Some c -> xlabel c = [] -> xtarget c = [] -> xcall c = false -> exists m', b = (S p, m') /\ runs e [c] m (Next m').
Proof.
  intros ST E L T C. inversion ST as [? ? t v n E' | ? ? t s d i m' E' D X | ? ? t s d i l m' q t' v E' D X E'' | ? ? t s d i m1 m2 E' D X RT]; subst; rewrite E in E'; injection E' as ->.
  - discriminate L.
  - exists m'. split; [reflexivity |]. rewrite <- X. now apply runs_one.
  - destruct (exec_goto _ _ _ _ _ _ _ _ D X) as (_ & I & _). rewrite T in I. destruct I.
  - destruct (exec_calls _ _ _ _ _ _ _ D X) as (_ & I & _). congruence.
Qed.
Lemma firstn_snoc {T} n (l : list T) c : nth_error l n = Some c -> firstn (S n) l = firstn n l ++ [c].
Proof. revert n. induction l as [| x l IH]; intros [| n] H; try discriminate H; cbn in *; [injection H as ->; auto |]. f_equal. now apply IH. Qed.
Lemma through_prologue e v n P rest F m0 a b : F = X64_LABEL X64_LABEL_FUNCTION v n :: P ++ rest -> flat P -> steps e F a b -> a = (0%nat, m0) ->
  b = (0%nat, m0) \/ (exists y m, b = (S y, m) /\ (y <= length P)%nat /\ runs e (firstn y P) m0 (Next m)) \/ (exists m1, runs e P m0 (Next m1) /\ steps e F (S (length P), m1) b).
Proof.
  intros EF FL ST. induction ST as [c | a b c ST IH SP]; intros ->; [auto |]. destruct (IH eq_refl) as [-> | [(y & m & -> & LE & R) | (m1 & R & S1)]]; clear IH.
  - right. left. exists O, m0. splits; [| lia | exists []; auto]. inversion SP; subst; cbn in *; congruence.
  - destruct (Nat.eq_dec y (length P)) as [-> | NE].
    + right. right. exists m. rewrite firstn_all in R. split; [exact R |]. eapply steps_step; [apply steps_refl | exact SP].
    + right. left. destruct (nth_error P y) as [c0 |] eqn:E; [| apply nth_error_None in E; lia]. destruct (flat_in _ _ FL (nth_error_In _ _ E)) as (L1 & L2 & L3 & _).
      assert (E0 : nth_error F (S y) = Some c0) by (rewrite EF; cbn; rewrite nth_error_app1 by lia; exact E). destruct (straight_step _ _ _ _ _ _ SP E0 L1 L2 L3) as (m' & -> & R'). exists (S y), m'. splits; [reflexivity | lia |]. rewrite (firstn_snoc _ _ _ E). eapply runs_app; eassumption.
  - right. right. exists m1. split; [exact R |]. eapply steps_step; eassumption.
Qed.
Lemma through_epilogue e A ep F a b : F = A ++ ep ++ [X64_INST X64_INST_RET None None] -> flat ep -> steps e F a b -> (fst a <= length A)%nat -> (length A <= fst b)%nat ->
  exists m2 y, steps e F a (length A, m2) /\ fst b = (length A + y)%nat /\ (y <= length ep)%nat /\ runs e (firstn y ep) m2 (Next (snd b)).
Proof.
  intros EF FL ST LA. induction ST as [c | a b c ST IH SP]; intros LB.
  - destruct c as [p m]. cbn [fst snd] in *. assert (p = length A) by lia. subst p. exists m, O. splits; [apply steps_refl | lia | lia | exists []; auto].
  - destruct b as [p m]. destruct (Nat.lt_ge_cases p (length A)) as [LT | GE].
    + assert (C : exists m', c = (length A, m')).
      { destruct (nth_error F p) as [c0 |] eqn:E0; [| inversion SP; subst; congruence]. inversion SP as [? ? t v n E' | ? ? t s d i m' E' D X | ? ? t s d i l m' q t' v E' D X E'' | ? ? t s d i m1 m2 E' D X RT]; subst c; cbn [fst] in LB; try (eexists; f_equal; lia).
        exfalso. rewrite EF, nth_error_app2 in E'' by lia. apply nth_error_In in E''. apply in_app_iff in E'' as [I | [I | []]]; [| discriminate I]. apply (flat_in _ _ FL) in I as (I & _). discriminate I. }
      destruct C as (m' & ->). exists m', O. splits; [eapply steps_step; eassumption | cbn; lia | lia | exists []; auto].
    + destruct (IH LA GE) as (m2 & y & S1 & P & LE & R). cbn [fst snd] in P, R. subst p. destruct (Nat.eq_dec y (length ep)) as [-> | NE].
      * exfalso. assert (E0 : nth_error F (length A + length ep) = Some (X64_INST X64_INST_RET None None)) by (rewrite EF, !nth_error_app2 by lia; replace (length A + length ep - length A - length ep)%nat with O by lia; reflexivity).
        inversion SP as [? ? t v n E' | ? ? t s d i m' E' D X | ? ? t s d i l m' q t' v E' D X E'' | ? ? t s d i m1 m3 E' D X RT]; subst; rewrite E0 in E'; try discriminate E'; injection E' as <- <- <-; cbn in D; injection D as <-; [discriminate X | discriminate X |]. destruct X as [(l & X) | (l & X)]; discriminate X.
      * destruct (nth_error ep y) as [c0 |] eqn:E; [| apply nth_error_None in E; lia]. destruct (flat_in _ _ FL (nth_error_In _ _ E)) as (L1 & L2 & L3 & _).
        assert (E0 : nth_error F (length A + y) = Some c0) by (rewrite EF, nth_error_app2 by lia; replace (length A + y - length A)%nat with y by lia; rewrite nth_error_app1 by lia; exact E).
        destruct (straight_step _ _ _ _ _ _ SP E0 L1 L2 L3) as (m' & -> & R'). exists m2, (S y). cbn [fst snd]. splits; [exact S1 | lia | lia |]. rewrite (firstn_snoc _ _ _ E). eapply runs_app; eassumption.
Qed.
Lemma run_untouched e F a b q : steps e F a b -> Forall sane F -> In q callee_saved -> q <> RSP -> (forall c, In c F -> ~ In q (List.map reg_of (touched c))) -> rget (regs (snd b)) q = rget (regs (snd a)) q.
Proof.
  intros ST SN I NS U. rewrite Forall_forall in SN. induction ST as [c | a b c ST IH SP]; [reflexivity |]. rewrite <- IH. clear ST IH.
  inversion SP as [? ? t v n E' | ? ? t s d i m' E' D X | ? ? t s d i l m' q' t' v E' D X E'' | ? ? t s d i m1 m3 E' D X RT]; subst; cbn [snd]; [reflexivity | | |]; apply nth_error_In in E'.
  - destruct (exec_next _ _ _ _ _ _ _ D (SN _ E') X) as (_ & _ & _ & O). apply O; [exact NS | now apply U].
  - destruct (exec_goto _ _ _ _ _ _ _ _ D X) as (-> & _). reflexivity.
  - destruct (exec_calls _ _ _ _ _ _ _ D X) as (-> & _). now apply RT.
Qed.

(** * Stack operations *)
Lemma load_bytes_value M n : forall a v, (forall i, 0 <= i < Z.of_nat n -> peek M (a + i) = byte v i) -> 0 <= v < 2 ^ (8 * Z.of_nat n) -> load_bytes M a n = v.
Proof.
  induction n as [| n IH]; intros a v H V; [cbn in *; lia |]. cbn [load_bytes]. rewrite (IH (a + 1) (v / 256)).
  - specialize (H 0 ltac:(lia)). rewrite Z.add_0_r, byte_0 in H. rewrite H. rewrite (Z.div_mod v 256) at 3 by lia. lia.
  - intros i Hi. rewrite <- byte_succ by lia. rewrite <- H by lia. f_equal. lia.
  - assert (E : 2 ^ (8 * Z.of_nat (S n)) = 256 * 2 ^ (8 * Z.of_nat n)) by (replace (8 * Z.of_nat (S n)) with (8 + 8 * Z.of_nat n) by lia; rewrite Z.pow_add_r by lia; reflexivity). rewrite E in V. split; [apply Z.div_pos; lia | apply Z.div_lt_upper_bound; lia].
Qed.
Lemma load_value M a v w : holds M a 8 v -> load M S8 a = Some w -> w = v.
Proof.
  intros (V & H) L. unfold load in L. destruct (valid M a (nbytes S8)); [| discriminate L]. assert (w = load_bytes M a (nbytes S8)) as -> by congruence. apply load_bytes_value; assumption.
Qed.
Lemma push_facts e r m m' : runs e [X64_INST X64_INST_PUSHX (quad r) None] m (Next m') -> 8 <= rget (regs m) RSP < 2 ^ 64 ->
  rget (regs m') RSP = rget (regs m) RSP - 8 /\ (forall q, q <> RSP -> rget (regs m') q = rget (regs m) q)
  /\ holds (mem m') (rget (regs m) RSP - 8) 8 (low S8 (rget (regs m) (reg_of r))) /\ (forall a, 0 <= a -> a < rget (regs m) RSP - 8 \/ rget (regs m) RSP <= a -> peek (mem m') a = peek (mem m) a)
  /\ (forall a n, accessible (mem m) a n -> accessible (mem m') a n).
Proof.
  intros R B. apply runs_inst in R as (i & D & X). cbn in D. injection D as <-. cbn [exec read] in X. unfold push in X. change (rsp (regs m)) with (rget (regs m) RSP) in X. rewrite (low_small S8) in X by (change (2 ^ nbits S8) with (2 ^ 64); lia).
  destruct (store (mem m) S8 (rget (regs m) RSP - 8) (get (regs m) S8 (reg_of r))) as [M |] eqn:ST; [| discriminate X]. injection X as <-. cbn [regs mem].
  assert (AC : accessible (mem m) (rget (regs m) RSP - 8) (size_bytes S8)). { unfold store in ST. destruct (valid (mem m) (rget (regs m) RSP - 8) (nbytes S8)) eqn:V; [| discriminate ST]. now apply valid_accessible in V. }
  destruct (store_written _ S8 _ (get (regs m) S8 (reg_of r)) AC) as (M' & ST' & W). rewrite ST in ST'. injection ST' as <-. splits.
  - apply rget_rset_same.
  - intros q Q. now apply rget_rset_other.
  - assert (P0 : 0 <= rget (regs m) RSP - 8) by lia. assert (H := written_holds _ S8 _ _ _ P0 W). unfold get in H. rewrite low_low in H. exact H.
  - intros a P A. destruct W as (_ & W). rewrite W by exact P. change (size_bytes S8) with 8. replace ((rget (regs m) RSP - 8 <=? a) && (a <? rget (regs m) RSP - 8 + 8)) with false by lia. reflexivity.
  - intros a n A. eapply written_accessible; eassumption.
Qed.
Lemma pop_facts e r m m' v : runs e [X64_INST X64_INST_POPX None (quad r)] m (Next m') -> 0 <= rget (regs m) RSP < 2 ^ 64 - 8 -> r <> SP_REG_ID -> holds (mem m) (rget (regs m) RSP) 8 v ->
  rget (regs m') RSP = rget (regs m) RSP + 8 /\ rget (regs m') (reg_of r) = v /\ (forall q, q <> RSP -> q <> reg_of r -> rget (regs m') q = rget (regs m) q) /\ mem m' = mem m.
Proof.
  intros R B NS H. apply runs_inst in R as (i & D & X). cbn in D. injection D as <-. cbn [exec] in X. unfold pop in X. change (rsp (regs m)) with (rget (regs m) RSP) in X. rewrite (low_small S8 (_ + 8)) in X by (change (2 ^ nbits S8) with (2 ^ 64); lia).
  destruct (load (mem m) S8 (rget (regs m) RSP)) as [w |] eqn:L; [| discriminate X]. apply (load_value _ _ v) in L; [| exact H]. subst w. assert (X' : Next (set_regs (set_regs m (rset (regs m) RSP (rget (regs m) RSP + 8))) (X64Isa.put (rset (regs m) RSP (rget (regs m) RSP + 8)) S8 (reg_of r) v)) = Next m') by exact X. assert (E : m' = set_regs (set_regs m (rset (regs m) RSP (rget (regs m) RSP + 8))) (X64Isa.put (rset (regs m) RSP (rget (regs m) RSP + 8)) S8 (reg_of r) v)) by congruence. clear X X'. subst m'. cbn [regs mem set_regs].
  assert (RS : reg_of r <> RSP) by (intros X; apply (reg_of_inj r SP_REG_ID) in X; contradiction).
  splits; [rewrite rget_put_other by congruence; apply rget_rset_same | rewrite rget_put8; apply low_small, H | | reflexivity]. intros q Q1 Q2. rewrite rget_put_other by exact Q2. now apply rget_rset_other.
Qed.
Lemma shift_facts e t v m m' : (t = X64_INST_SUBX \/ t = X64_INST_ADDX) -> runs e [X64_INST t (number v) (quad SP_REG_ID)] m (Next m') ->
  rget (regs m') RSP = low S8 (if match t with X64_INST_SUBX => true | _ => false end then rget (regs m) RSP - v else rget (regs m) RSP + v) /\ (forall q, q <> RSP -> rget (regs m') q = rget (regs m) q) /\ mem m' = mem m.
Proof.
  intros [-> | ->] R; apply runs_inst in R as (i & D & X); [apply decode_sub_sp in D | apply decode_add_sp in D]; subst i; cbn [exec read lit_value sval itype] in X;
    (match type of X with Next ?x = Next _ => assert (E : m' = x) by congruence end); clear X; subst m'; cbn [regs mem set_arith]; (splits; [| intros q Q; now apply rget_put_other | reflexivity]); rewrite rget_put8; unfold get; change (lit_value (mkil IInt v 0)) with v; [apply low_sub | apply low_add]; apply low_low.
Qed.
Lemma pushes_run e : forall rs m m', runs e (List.map (fun r => X64_INST X64_INST_PUSHX (quad r) None) rs) m (Next m') -> 8 * Z.of_nat (length rs) <= rget (regs m) RSP < 2 ^ 64 -> ~ In SP_REG_ID rs ->
  rget (regs m') RSP = rget (regs m) RSP - 8 * Z.of_nat (length rs) /\ (forall q, q <> RSP -> rget (regs m') q = rget (regs m) q)
  /\ (forall j r, nth_error rs j = Some r -> holds (mem m') (rget (regs m) RSP - 8 * Z.of_nat (S j)) 8 (low S8 (rget (regs m) (reg_of r))))
  /\ (forall a, 0 <= a -> a < rget (regs m) RSP - 8 * Z.of_nat (length rs) \/ rget (regs m) RSP <= a -> peek (mem m') a = peek (mem m) a)
  /\ (forall a n, accessible (mem m) a n -> accessible (mem m') a n).
Proof.
  induction rs as [| r rs IH]; intros m m' R B NS.
  - apply runs_nil in R. subst m'. cbn [length]. splits; auto; [lia |]. intros j r E. destruct j; discriminate E.
  - cbn [List.map] in R. apply runs_cons in R as (m1 & R1 & R). cbn [length] in B. destruct (push_facts _ _ _ _ R1 ltac:(lia)) as (P1 & P2 & P3 & P4 & P5). destruct (IH _ _ R) as (Q1 & Q2 & Q3 & Q4 & Q5); [lia | intros I; apply NS; now right |].
    cbn [length]. splits.
    + lia.
    + intros q Q. rewrite Q2, P2; auto.
    + intros j x E. destruct j as [| j].
      * cbn in E. injection E as <-. destruct P3 as (V & H). split; [exact V |]. intros i Hi. rewrite Q4 by lia. replace (rget (regs m) RSP - 8 * Z.of_nat 1 + i) with (rget (regs m) RSP - 8 + i) by lia. now apply H.
      * cbn in E. specialize (Q3 _ _ E). rewrite P1, P2 in Q3 by (intros X; apply (reg_of_inj x SP_REG_ID) in X; subst x; apply NS; right; eapply nth_error_In, E).
        replace (rget (regs m) RSP - 8 * Z.of_nat (S (S j))) with (rget (regs m) RSP - 8 - 8 * Z.of_nat (S j)) by lia. exact Q3.
    + intros a A O. rewrite Q4 by lia. apply P4; lia.
    + auto.
Qed.
Lemma holds_agree M M' a n v : holds M a n v -> (forall i, 0 <= i < n -> peek M' (a + i) = peek M (a + i)) -> holds M' a n v.
Proof. intros (V & H) E. split; [exact V |]. intros i I. rewrite E by exact I. now apply H. Qed.
Lemma pops_back e : forall rs vs m m', runs e (List.map (fun r => X64_INST X64_INST_POPX None (quad r)) rs) m (Next m') -> 0 <= rget (regs m) RSP -> rget (regs m) RSP + 8 * Z.of_nat (length rs) < 2 ^ 64 -> ~ In SP_REG_ID rs -> NoDup rs -> length vs = length rs ->
  (forall j v, nth_error vs j = Some v -> holds (mem m) (rget (regs m) RSP + 8 * Z.of_nat j) 8 v) ->
  rget (regs m') RSP = rget (regs m) RSP + 8 * Z.of_nat (length rs) /\ mem m' = mem m
  /\ (forall j r v, nth_error rs j = Some r -> nth_error vs j = Some v -> rget (regs m') (reg_of r) = v)
  /\ (forall q, q <> RSP -> ~ In q (List.map reg_of rs) -> rget (regs m') q = rget (regs m) q).
Proof.
  induction rs as [| r rs IH]; intros vs m m' R P0 PM NS ND LV H.
  - apply runs_nil in R. subst m'. cbn [length]. splits; auto; [lia |]. intros j r v E. destruct j; discriminate E.
  - destruct vs as [| v vs]; [discriminate LV |]. cbn [List.map] in R. apply runs_cons in R as (m1 & R1 & R). cbn [length] in PM, LV. inversion ND as [| ? ? N1 N2]; subst.
    assert (H0 := H O v eq_refl). rewrite Nat2Z.inj_0, Z.mul_0_r, Z.add_0_r in H0. destruct (pop_facts _ _ _ _ v R1) as (P1 & P2 & P3 & P4); [lia | intros ->; apply NS; now left | exact H0 |].
    destruct (IH vs _ _ R) as (Q1 & Q2 & Q3 & Q4); [lia | lia | intros I; apply NS; now right | exact N2 | lia | |].
    { intros j w E. rewrite P4, P1. replace (rget (regs m) RSP + 8 + 8 * Z.of_nat j) with (rget (regs m) RSP + 8 * Z.of_nat (S j)) by lia. now apply H. }
    cbn [length]. splits; [lia | congruence | |].
    + intros j x w E1 E2. destruct j as [| j]; cbn in E1, E2; [injection E1 as <-; injection E2 as <- | eapply Q3; eassumption]. rewrite Q4; [exact P2 | intros X; apply (reg_of_inj r SP_REG_ID) in X; subst r; apply NS; now left |]. intros I. apply in_map_iff in I as (x & X & I). apply reg_of_inj in X. now subst x.
    + intros q Q A. cbn in A. rewrite Q4 by tauto. apply P3; [exact Q | intros ->; tauto].
Qed.
