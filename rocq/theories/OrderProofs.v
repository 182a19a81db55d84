(** Proofs for C35 and C36: the code generated for expressions uses its registers in order *)
From Verif Require Import Base ImmcModel ImmcSem LabelSpec RegSpec RegProofs RegProofs2 RegProofs6.
Local Open Scope Z_scope.

(** an instruction after which control goes on, and nowhere else *)
Definition simple (c : immc) : Prop := goes_to c = None /\ goes_on c = true.
(** [c] writes no register, or the next one *)
Definition fresh (n : Z) (c : immc) (n' : Z) (W : list Z) : Prop := (writes c = None /\ n' = n /\ W = []) \/ (writes c = Some (n + 1) /\ n' = n + 1 /\ W = [n + 1]).
Definition label_im (n : name) (c : immc) : Prop := exists t v, c = IMMC_LABEL t v n.
Definition jump_im (n : name) (c : immc) : Prop := goes_to c = Some n /\ goes_on c = true /\ writes c = None.
Definition jmp_im (n : name) (c : immc) : Prop := goes_to c = Some n /\ goes_on c = false /\ writes c = None /\ reads c = [].

(** [code n0 cs n1 A R]: the code [cs] of an expression writes registers above [n0] up to [n1]. After it the registers [A] may be read.
    Those in [R] were written more than once: after the code, each of them is live or no other register is. *)
Inductive code : Z -> list immc -> Z -> list Z -> list Z -> Prop :=
| code_nil n : code n [] n [] []
| code_weaken n0 cs n1 A R A' R' : code n0 cs n1 A R -> incl A' A -> incl R R' -> incl R' A' -> code n0 cs n1 A' R'
| code_seq n0 c1 n1 A1 R1 c2 n2 A2 R2 : code n0 c1 n1 A1 R1 -> code n1 c2 n2 A2 R2 -> code n0 (c1 ++ c2) n2 (A1 ++ A2) (R1 ++ R2)
| code_inst n0 cs n1 A R c n2 W : code n0 cs n1 A R -> simple c -> fresh n1 c n2 W -> incl (reads c) A -> incl R (reads c) -> code n0 (cs ++ [c]) n2 (W ++ A) []
| code_again n0 cs n1 A R c s : code n0 cs n1 A R -> simple c -> writes c = Some s -> In s A -> incl (reads c) A -> incl R (reads c) -> code n0 (cs ++ [c]) n1 A [s]
| code_twice n0 cs n1 A R c d s n2 W : code n0 cs n1 A R -> simple c -> writes c = Some s -> In s A -> incl (reads c) A ->
    simple d -> fresh n1 d n2 W -> incl (reads d) A -> In s (reads d) -> (forall r, In r R -> In r (reads c) \/ In r (reads d) /\ r <> s) ->
    code n0 (cs ++ [c; d]) n2 (W ++ A) []
| code_cond n0 c1 n1 A1 R1 j lf c2 n2 A2 R2 d1 jm le lbf c3 n3 A3 R3 d2 lbe :
    code n0 c1 n1 A1 R1 -> jump_im lf j -> incl (reads j) A1 -> incl R1 (reads j) ->
    code (n1 + 1) c2 n2 A2 R2 -> simple d1 -> writes d1 = Some (n1 + 1) -> incl (reads d1) A2 -> incl R2 (reads d1) ->
    jmp_im le jm -> label_im lf lbf ->
    code n2 c3 n3 A3 R3 -> simple d2 -> writes d2 = Some (n1 + 1) -> incl (reads d2) A3 -> incl R3 (reads d2) -> label_im le lbe ->
    code n0 (c1 ++ [j] ++ c2 ++ [d1; jm; lbf] ++ c3 ++ [d2; lbe]) n3 [n1 + 1] [n1 + 1]
| code_logical n0 c1 n1 A1 R1 j1 l c2 n2 A2 R2 j2 d1 jm le lb d2 lbe :
    code n0 c1 n1 A1 R1 -> jump_im l j1 -> incl (reads j1) A1 -> incl R1 (reads j1) ->
    code n1 c2 n2 A2 R2 -> jump_im l j2 -> incl (reads j2) A2 -> incl R2 (reads j2) ->
    simple d1 -> writes d1 = Some (n2 + 1) -> reads d1 = [] -> jmp_im le jm -> label_im l lb ->
    simple d2 -> writes d2 = Some (n2 + 1) -> reads d2 = [] -> label_im le lbe ->
    code n0 (c1 ++ [j1] ++ c2 ++ [j2; d1; jm; lb; d2; lbe]) (n2 + 1) [n2 + 1] [n2 + 1].

Section At.
Variable fn : list immc.
Hypothesis ND : NoDup (labels fn).
Definition sits (i : nat) (cs : list immc) : Prop := forall k c, nth_error cs k = Some c -> nth_error fn (i + k) = Some c.
Lemma sits_app i a b : sits i (a ++ b) <-> sits i a /\ sits (i + length a) b.
Proof.
  split.
  - intros H. split; intros k c E.
    + apply H. rewrite nth_error_app1; [exact E |]. apply nth_error_Some. congruence.
    + replace (i + length a + k)%nat with (i + (length a + k))%nat by lia. apply H. rewrite nth_error_app2 by lia. replace (length a + k - length a)%nat with k by lia. exact E.
  - intros [A B] k c E. destruct (Nat.lt_ge_cases k (length a)) as [Lt | Ge]; [rewrite nth_error_app1 in E by exact Lt; now apply A |].
    rewrite nth_error_app2 in E by exact Ge. apply B in E. now replace (i + length a + (k - length a))%nat with (i + k)%nat in E by lia.
Qed.
Lemma sits_cons i c cs : sits i (c :: cs) <-> nth_error fn i = Some c /\ sits (S i) cs.
Proof.
  split.
  - intros H. split; [specialize (H 0%nat c eq_refl); now rewrite Nat.add_0_r in H |]. intros k x E. specialize (H (S k) x E). now rewrite Nat.add_succ_r in H.
  - intros [A B] [| k] x E; [injection E as <-; now rewrite Nat.add_0_r |]. rewrite Nat.add_succ_r. now apply B.
Qed.
Lemma sits_in i cs p : sits i cs -> (i <= p < i + length cs)%nat -> exists c, nth_error fn p = Some c /\ In c cs.
Proof.
  intros H P. destruct (nth_error cs (p - i)) as [c |] eqn:E; [| apply nth_error_None in E; lia].
  exists c. split; [| eapply nth_error_In, E]. specialize (H _ _ E). now replace (i + (p - i))%nat with p in H by lia.
Qed.
Lemma label_is q t v n : nth_error fn q = Some (IMMC_LABEL t v n) -> label_at n fn = Some q.
Proof.
  intros Q. destruct (label_at n fn) as [q' |] eqn:E.
  - destruct (label_at_nth _ _ _ E) as (t' & v' & Q'). f_equal. eapply label_once; eauto.
  - exfalso. clear ND. revert q Q E. induction fn as [| c l IH]; intros [| q] Q E; try discriminate Q.
    + injection Q as ->. cbn [label_at] in E. destruct (name_eqb n n) eqn:X; [discriminate E |]. assert (name_eqb n n = true) by (apply TypeProofs.name_eqb_eq; reflexivity). congruence.
    + cbn [nth_error] in Q. cbn [label_at] in E. assert (N : label_at n l = None). { destruct c; try (destruct (label_at n l); [discriminate E | reflexivity]). destruct (name_eqb n n0); [discriminate E |]. destruct (label_at n l); [discriminate E | reflexivity]. }
      exact (IH _ Q N).
Qed.

(** going one step back *)
Lemma live_simple p c r : nth_error fn p = Some c -> simple c -> live fn p r -> In r (reads c) \/ writes c <> Some r /\ live fn (S p) r.
Proof.
  intros E [G O] H. inversion H as [p' c' r' E' I | p' q c' r' E' W F L]; subst; rewrite E in E'; injection E' as <-; [now left |].
  right. split; [exact W |]. destruct F as (c' & E' & [(_ & ->) | (n & G' & _)]); [exact L |]. rewrite E in E'. injection E' as <-. congruence.
Qed.
Lemma live_label p c n r : nth_error fn p = Some c -> label_im n c -> live fn p r -> live fn (S p) r.
Proof.
  intros E (t & v & ->) H. apply (live_simple _ _ _ E) in H as [[] | [_ H]]; [exact H |]. now split.
Qed.
Lemma live_jump p c n q cq r : nth_error fn p = Some c -> jump_im n c -> nth_error fn q = Some cq -> label_im n cq -> live fn p r -> In r (reads c) \/ live fn (S p) r \/ live fn q r.
Proof.
  intros E (G & O & W0) Q (t & v & ->) H. inversion H as [p' c' r' E' I | p' q' c' r' E' W F L]; subst; rewrite E in E'; injection E' as <-; [now left |]. right.
  destruct F as (c' & E' & [(_ & ->) | (m & G' & La)]); [now left |]. rewrite E in E'. injection E' as <-. rewrite G in G'. injection G' as <-. rewrite (label_is _ _ _ _ Q) in La. injection La as <-. now right.
Qed.
Lemma live_jmp p c n q cq r : nth_error fn p = Some c -> jmp_im n c -> nth_error fn q = Some cq -> label_im n cq -> live fn p r -> live fn q r.
Proof.
  intros E (G & O & W0 & R0) Q (t & v & ->) H. inversion H as [p' c' r' E' I | p' q' c' r' E' W F L]; subst; rewrite E in E'; injection E' as <-; [rewrite R0 in I; destruct I |].
  destruct F as (c' & E' & [(O' & _) | (m & G' & La)]); rewrite E in E'; injection E' as <-; [congruence |]. rewrite G in G'. injection G' as <-. rewrite (label_is _ _ _ _ Q) in La. injection La as <-. exact L.
Qed.
Lemma back_simple p c r : nth_error fn p = Some c -> goes_on c = true -> writes c <> Some r -> live fn (S p) r -> live fn p r.
Proof. intros E G W L. eapply live_later; [exact E | exact W | | exact L]. exists c. split; [exact E | left; now split]. Qed.
Lemma back_jump p c n q cq r : nth_error fn p = Some c -> goes_to c = Some n -> writes c = None -> nth_error fn q = Some cq -> label_im n cq -> live fn q r -> live fn p r.
Proof.
  intros E G W Q (t & v & ->) L. eapply live_later; [exact E | congruence | | exact L]. exists c. split; [exact E |]. right. exists n. split; [exact G | eapply label_is, Q].
Qed.
Lemma reads_live p c r : nth_error fn p = Some c -> In r (reads c) -> live fn p r.
Proof. apply live_read. Qed.

(** * What holds of the code by itself *)
Definition written (i j : nat) (r : Z) : Prop := exists q c, (i <= q < j)%nat /\ nth_error fn q = Some c /\ writes c = Some r.
Lemma written_more i j i' j' r : written i j r -> (i' <= i)%nat -> (j <= j')%nat -> written i' j' r.
Proof. intros (q & c & Q & E & W) A B. exists q, c. split; [lia | auto]. Qed.
Lemma written_one i c r : nth_error fn i = Some c -> writes c = Some r -> written i (S i) r.
Proof. intros E W. exists i, c. split; [lia | auto]. Qed.
Definition writes_in (n0 n1 : Z) (i j : nat) : Prop := forall r, written i j r -> n0 < r <= n1.
Lemma writes_in_app n0 n1 n2 i j k : writes_in n0 n1 i j -> writes_in n1 n2 j k -> n0 <= n1 -> n1 <= n2 -> writes_in n0 n2 i k.
Proof.
  intros A B X Y r (q & c & Q & E & W). destruct (Nat.lt_ge_cases q j) as [Lt | Ge].
  - specialize (A r). assert (n0 < r <= n1); [apply A; exists q, c; split; [lia | auto] | lia].
  - specialize (B r). assert (n1 < r <= n2); [apply B; exists q, c; split; [lia | auto] | lia].
Qed.
Lemma writes_in_none n i c : nth_error fn i = Some c -> writes c = None -> writes_in n n i (S i).
Proof. intros E W r (q & c' & Q & E' & W'). assert (q = i) by lia. subst q. congruence. Qed.
Lemma writes_in_some n n' i c s : nth_error fn i = Some c -> writes c = Some s -> n < s <= n' -> writes_in n n' i (S i).
Proof. intros E W B r (q & c' & Q & E' & W'). assert (q = i) by lia. subst q. rewrite E in E'. injection E' as <-. rewrite W in W'. injection W' as <-. exact B. Qed.
Lemma writes_in_weak n0 n1 n0' n1' i j : writes_in n0 n1 i j -> n0' <= n0 -> n1 <= n1' -> writes_in n0' n1' i j.
Proof. intros H A B r W. specialize (H r W). lia. Qed.
Lemma writes_in_nil n n' i : writes_in n n' i i.
Proof. intros r (q & c & Q & _). lia. Qed.
Lemma writes_in_join n0 n1 i j k : writes_in n0 n1 i j -> writes_in n0 n1 j k -> writes_in n0 n1 i k.
Proof.
  intros A B r (q & c & Q & E & W). destruct (Nat.lt_ge_cases q j) as [Lt | Ge]; [apply A | apply B]; exists q, c; split; [lia | auto | lia | auto].
Qed.
(** jumps go forward, to a label within *)
Definition forward (i j : nat) : Prop := forall p c n, (i <= p < j)%nat -> nth_error fn p = Some c -> goes_to c = Some n -> exists q cq, (p < q < j)%nat /\ nth_error fn q = Some cq /\ label_im n cq.
Lemma forward_app i j k : (j <= k)%nat -> forward i j -> forward j k -> forward i k.
Proof.
  intros X A B p c n P E G. destruct (Nat.lt_ge_cases p j) as [Lt | Ge].
  - destruct (A p c n ltac:(lia) E G) as (q & cq & Q & Eq & La). exists q, cq. split; [lia | auto].
  - destruct (B p c n ltac:(lia) E G) as (q & cq & Q & Eq & La). exists q, cq. split; [lia | auto].
Qed.
Lemma forward_one i c : nth_error fn i = Some c -> goes_to c = None -> forward i (S i).
Proof. intros E G p c' n P E' G'. assert (p = i) by lia. subst p. congruence. Qed.
Lemma forward_nil i : forward i i.
Proof. intros p c n P. lia. Qed.

Record basic (n0 : Z) (i : nat) (n1 : Z) (j : nat) (A R : list Z) : Prop := {
  bs_mono : n0 <= n1;
  bs_sub : incl R A;
  bs_avail : forall r, In r A -> n0 < r <= n1 /\ written i j r;
  bs_writes : writes_in n0 n1 i j;
  bs_forward : forward i j }.

Lemma label_writes n c : label_im n c -> writes c = None.
Proof. now intros (t & v & ->). Qed.
Lemma label_goes n c : label_im n c -> goes_to c = None.
Proof. now intros (t & v & ->). Qed.
Lemma label_simple n c : label_im n c -> simple c /\ reads c = [].
Proof. intros (t & v & ->). now repeat split. Qed.
Lemma fresh_bound n c n' W i : nth_error fn i = Some c -> fresh n c n' W -> n <= n' /\ writes_in n n' i (S i) /\ (forall r, In r W -> n < r <= n' /\ written i (S i) r).
Proof.
  intros E [(F & -> & ->) | (F & -> & ->)].
  - split; [lia |]. split; [now apply writes_in_none with c | intros r []].
  - split; [lia |]. split; [apply (writes_in_some _ _ _ _ _ E F); lia |]. intros r [<- | []]. split; [lia |]. now apply written_one with c.
Qed.
Lemma code_basic n0 cs n1 A R : code n0 cs n1 A R -> forall i, sits i cs -> basic n0 i n1 (i + length cs) A R.
Proof.
  induction 1 as [n | n0 cs n1 A R A' R' C IH S1 S2 S3 | n0 c1 n1 A1 R1 c2 n2 A2 R2 C1 IH1 C2 IH2 | n0 cs n1 A R c n2 W C IH Sc F S1 S2 | n0 cs n1 A R c s C IH Sc Wr I S1 S2
    | n0 cs n1 A R c d s n2 W C IH Sc Wr I S1 Sd F S2 I2 S3
    | n0 c1 n1 A1 R1 j lf c2 n2 A2 R2 d1 jm le lbf c3 n3 A3 R3 d2 lbe C1 IH1 Jj S1 S1' C2 IH2 Sd1 Wd1 S2 S2' Jm Lf C3 IH3 Sd2 Wd2 S3 S3' Le
    | n0 c1 n1 A1 R1 j1 l c2 n2 A2 R2 j2 d1 jm le lb d2 lbe C1 IH1 J1 S1 S1' C2 IH2 J2 S2 S2' Sd1 Wd1 Rd1 Jm Lb Sd2 Wd2 Rd2 Le]; intros i H.
  - cbn. rewrite Nat.add_0_r. split; [lia | intros r [] | intros r [] | apply writes_in_nil | apply forward_nil].
  - destruct (IH i H) as [B1 B2 B3 B4 B5]. split; auto.
  - apply sits_app in H as [H1 H2]. destruct (IH1 _ H1) as [X1 X2 X3 X4 X5]. destruct (IH2 _ H2) as [Y1 Y2 Y3 Y4 Y5]. rewrite app_length, Nat.add_assoc. split.
    + lia.
    + apply incl_app; [now apply incl_appl | now apply incl_appr].
    + intros r I. apply in_app_iff in I as [I | I].
      * destruct (X3 r I) as [Z1 Z2]. split; [lia |]. eapply written_more; [exact Z2 | lia | lia].
      * destruct (Y3 r I) as [Z1 Z2]. split; [lia |]. eapply written_more; [exact Z2 | lia | lia].
    + eapply writes_in_app; eauto.
    + eapply forward_app; [| exact X5 | exact Y5]. lia.
  - apply sits_app in H as [H1 H2]. apply sits_cons in H2 as [E _]. destruct (IH _ H1) as [X1 X2 X3 X4 X5]. destruct (fresh_bound _ _ _ _ _ E F) as (F1 & F2 & F3).
    rewrite app_length, Nat.add_assoc. cbn [length]. rewrite Nat.add_1_r. split.
    + lia.
    + intros r [].
    + intros r I. apply in_app_iff in I as [I | I].
      * destruct (F3 r I) as [Z1 Z2]. split; [lia |]. eapply written_more; [exact Z2 | lia | lia].
      * destruct (X3 r I) as [Z1 Z2]. split; [lia |]. eapply written_more; [exact Z2 | lia | lia].
    + eapply writes_in_app; eauto.
    + eapply forward_app; [| exact X5 | apply (forward_one _ _ E), Sc]. lia.
  - apply sits_app in H as [H1 H2]. apply sits_cons in H2 as [E _]. destruct (IH _ H1) as [X1 X2 X3 X4 X5].
    rewrite app_length, Nat.add_assoc. cbn [length]. rewrite Nat.add_1_r. split.
    + lia.
    + intros r [<- | []]. exact I.
    + intros r I'. destruct (X3 r I') as [Z1 Z2]. split; [lia |]. eapply written_more; [exact Z2 | lia | lia].
    + eapply writes_in_join; [exact X4 |]. apply (writes_in_some _ _ _ _ _ E Wr), X3, I.
    + eapply forward_app; [| exact X5 | apply (forward_one _ _ E), Sc]. lia.
  - apply sits_app in H as [H1 H2]. apply sits_cons in H2 as [E H2]. apply sits_cons in H2 as [E2 _]. destruct (IH _ H1) as [X1 X2 X3 X4 X5]. destruct (fresh_bound _ _ _ _ _ E2 F) as (F1 & F2 & F3).
    rewrite app_length, Nat.add_assoc. cbn [length]. replace (i + length cs + 2)%nat with (S (S (i + length cs))) by lia. split.
    + lia.
    + intros r [].
    + intros r I'. apply in_app_iff in I' as [I' | I'].
      * destruct (F3 r I') as [Z1 Z2]. split; [lia |]. eapply written_more; [exact Z2 | lia | lia].
      * destruct (X3 r I') as [Z1 Z2]. split; [lia |]. eapply written_more; [exact Z2 | lia | lia].
    + eapply writes_in_app; [| exact F2 | lia | lia]. eapply writes_in_join; [exact X4 |]. apply (writes_in_some _ _ _ _ _ E Wr), X3, I.
    + eapply forward_app; [| exact X5 |]; [lia |]. eapply forward_app; [| apply (forward_one _ _ E), Sc | apply (forward_one _ _ E2), Sd]. lia.
  - apply sits_app in H as [H1 H]. apply sits_app in H as [Hj H]. apply sits_app in H as [H2 H]. apply sits_app in H as [Hd1 H]. apply sits_app in H as [H3 Hd2]. cbn [length] in *.
    apply sits_cons in Hj as [Ej _]. apply sits_cons in Hd1 as [Ed1 Hd1]. apply sits_cons in Hd1 as [Ejm Hd1]. apply sits_cons in Hd1 as [Elf _]. apply sits_cons in Hd2 as [Ed2 Hd2]. apply sits_cons in Hd2 as [Ele _].
    destruct (IH1 _ H1) as [X1 X2 X3 X4 X5]. destruct (IH2 _ H2) as [Y1 Y2 Y3 Y4 Y5]. destruct (IH3 _ H3) as [Z1 Z2 Z3 Z4 Z5].
    repeat (rewrite app_length in * || cbn [length] in * ).
    set (p1 := (i + length c1)%nat) in *. set (p2 := (p1 + 1)%nat) in *. set (p3 := (p2 + length c2)%nat) in *. set (p6 := (p3 + 3)%nat) in *. set (p7 := (p6 + length c3)%nat) in *.
    replace (i + _)%nat with (S (S p7)) by (subst p7 p6 p3 p2 p1; lia). split.
    + lia.
    + apply incl_refl.
    + intros r [<- | []]. split; [lia |]. exists p7, d2. split; [subst p7 p6 p3 p2 p1; lia | auto].
    + assert (NW : forall k c, nth_error fn k = Some c -> writes c = None -> writes_in n0 n3 k (S k)) by (intros k c K Wk r (q & c' & Q & E' & W'); assert (q = k) by lia; subst q; congruence).
      apply writes_in_join with p1; [eapply writes_in_weak; [exact X4 | lia | lia] |].
      apply writes_in_join with p2; [subst p2; rewrite Nat.add_1_r; apply (NW _ _ Ej), Jj |].
      apply writes_in_join with p3; [eapply writes_in_weak; [exact Y4 | lia | lia] |].
      apply writes_in_join with (S p3); [apply (writes_in_some _ _ _ _ _ Ed1 Wd1); lia |].
      apply writes_in_join with (S (S p3)); [apply (NW _ _ Ejm), Jm |].
      apply writes_in_join with p6; [subst p6; replace (p3 + 3)%nat with (S (S (S p3))) by lia; apply (NW _ _ Elf); eapply label_writes, Lf |].
      apply writes_in_join with p7; [eapply writes_in_weak; [exact Z4 | lia | lia] |].
      apply writes_in_join with (S p7); [apply (writes_in_some _ _ _ _ _ Ed2 Wd2); lia |].
      apply (NW _ _ Ele). eapply label_writes, Le.
    + intros p c n P E G.
      assert (Cs : (i <= p < p1 \/ p = p1 \/ p2 <= p < p3 \/ p = p3 \/ p = S p3 \/ p = S (S p3) \/ p6 <= p < p7 \/ p = p7 \/ p = S p7)%nat) by (subst p6; lia).
      destruct Cs as [Q | [-> | [Q | [-> | [-> | [-> | [Q | [-> | ->]]]]]]]].
      * destruct (X5 p c n ltac:(lia) E G) as (q & cq & Q1 & Q2 & Q3). exists q, cq. split; [subst p7 p6 p3 p2 p1; lia | auto].
      * rewrite Ej in E. injection E as <-. destruct Jj as (G' & _). rewrite G in G'. injection G' as ->. exists (S (S p3)), lbf. split; [subst p7 p6 p3 p2 p1; lia | auto].
      * destruct (Y5 p c n ltac:(lia) E G) as (q & cq & Q1 & Q2 & Q3). exists q, cq. split; [subst p7 p6 p3 p2 p1; lia | auto].
      * rewrite Ed1 in E. injection E as <-. destruct Sd1. congruence.
      * rewrite Ejm in E. injection E as <-. destruct Jm as (G' & _). rewrite G in G'. injection G' as ->. exists (S p7), lbe. split; [subst p7 p6 p3 p2 p1; lia | auto].
      * rewrite Elf in E. injection E as <-. apply label_goes in Lf. congruence.
      * destruct (Z5 p c n ltac:(lia) E G) as (q & cq & Q1 & Q2 & Q3). exists q, cq. split; [subst p7 p6 p3 p2 p1; lia | auto].
      * rewrite Ed2 in E. injection E as <-. destruct Sd2. congruence.
      * rewrite Ele in E. injection E as <-. apply label_goes in Le. congruence.
  - apply sits_app in H as [H1 H]. apply sits_app in H as [Hj H]. apply sits_app in H as [H2 H]. cbn [length] in *.
    apply sits_cons in Hj as [Ej1 _]. apply sits_cons in H as [Ej2 H]. apply sits_cons in H as [Ed1 H]. apply sits_cons in H as [Ejm H]. apply sits_cons in H as [Elb H]. apply sits_cons in H as [Ed2 H]. apply sits_cons in H as [Ele _].
    destruct (IH1 _ H1) as [X1 X2 X3 X4 X5]. destruct (IH2 _ H2) as [Y1 Y2 Y3 Y4 Y5].
    repeat (rewrite app_length in * || cbn [length] in * ).
    set (p1 := (i + length c1)%nat) in *. set (p2 := (p1 + 1)%nat) in *. set (p3 := (p2 + length c2)%nat) in *.
    replace (i + _)%nat with (S (S (S (S (S (S p3)))))) by (subst p3 p2 p1; lia). split.
    + lia.
    + apply incl_refl.
    + intros r [<- | []]. split; [lia |]. exists (S p3), d1. split; [subst p3 p2 p1; lia | auto].
    + assert (NW : forall k c, nth_error fn k = Some c -> writes c = None -> writes_in n0 (n2 + 1) k (S k)) by (intros k c K Wk r (q & c' & Q & E' & W'); assert (q = k) by lia; subst q; congruence).
      apply writes_in_join with p1; [eapply writes_in_weak; [exact X4 | lia | lia] |].
      apply writes_in_join with p2; [subst p2; rewrite Nat.add_1_r; apply (NW _ _ Ej1), J1 |].
      apply writes_in_join with p3; [eapply writes_in_weak; [exact Y4 | lia | lia] |].
      apply writes_in_join with (S p3); [apply (NW _ _ Ej2), J2 |].
      apply writes_in_join with (S (S p3)); [apply (writes_in_some _ _ _ _ _ Ed1 Wd1); lia |].
      apply writes_in_join with (S (S (S p3))); [apply (NW _ _ Ejm), Jm |].
      apply writes_in_join with (S (S (S (S p3)))); [apply (NW _ _ Elb); eapply label_writes, Lb |].
      apply writes_in_join with (S (S (S (S (S p3))))); [apply (writes_in_some _ _ _ _ _ Ed2 Wd2); lia |].
      apply (NW _ _ Ele). eapply label_writes, Le.
    + intros p c n P E G.
      assert (Cs : (i <= p < p1 \/ p = p1 \/ p2 <= p < p3 \/ p = p3 \/ p = S p3 \/ p = S (S p3) \/ p = S (S (S p3)) \/ p = S (S (S (S p3))) \/ p = S (S (S (S (S p3)))))%nat) by lia.
      destruct Cs as [Q | [-> | [Q | [-> | [-> | [-> | [-> | [-> | ->]]]]]]]].
      * destruct (X5 p c n ltac:(lia) E G) as (q & cq & Q1 & Q2 & Q3). exists q, cq. split; [subst p3 p2 p1; lia | auto].
      * rewrite Ej1 in E. injection E as <-. destruct J1 as (G' & _). rewrite G in G'. injection G' as ->. exists (S (S (S p3))), lb. split; [subst p3 p2 p1; lia | auto].
      * destruct (Y5 p c n ltac:(lia) E G) as (q & cq & Q1 & Q2 & Q3). exists q, cq. split; [subst p3 p2 p1; lia | auto].
      * rewrite Ej2 in E. injection E as <-. destruct J2 as (G' & _). rewrite G in G'. injection G' as ->. exists (S (S (S p3))), lb. split; [subst p3 p2 p1; lia | auto].
      * rewrite Ed1 in E. injection E as <-. destruct Sd1. congruence.
      * rewrite Ejm in E. injection E as <-. destruct Jm as (G' & _). rewrite G in G'. injection G' as ->. exists (S (S (S (S (S p3))))), lbe. split; [subst p3 p2 p1; lia | auto].
      * rewrite Elb in E. injection E as <-. apply label_goes in Lb. congruence.
      * rewrite Ed2 in E. injection E as <-. destruct Sd2. congruence.
      * rewrite Ele in E. injection E as <-. apply label_goes in Le. congruence.
Qed.

(** * What holds of it in a function, depending on what is live after it *)
Definition need (j : nat) (s : Z) : Prop := live fn j s \/ forall r, live fn j r -> r = s.
Record sound (n0 : Z) (i j : nat) : Prop := {
  so_live : forall p r, (i <= p <= j)%nat -> live fn p r -> r <= n0 /\ live fn j r \/ written i p r;
  so_needed : forall p c s r, (i <= p < j)%nat -> nth_error fn p = Some c -> writes c = Some s -> live fn (S p) r -> r <> s -> live fn (S p) s \/ forall t, written i p t -> t < s;
  so_keeps : forall r, r <= n0 -> live fn j r -> live fn i r }.
Lemma sound_start n0 i j r : (i <= j)%nat -> sound n0 i j -> live fn i r -> r <= n0 /\ live fn j r.
Proof. intros B H L. destruct (so_live _ _ _ H i r ltac:(lia) L) as [X | (q & c & Q & _)]; [exact X | lia]. Qed.
Lemma written_split i m j r : written i j r -> written i m r \/ written m j r.
Proof. intros (q & c & Q & E & W). destruct (Nat.lt_ge_cases q m); [left | right]; exists q, c; split; [lia | auto | lia | auto]. Qed.
(** one instruction *)
Lemma inst_sound n0 i m c : sound n0 i m -> (i <= m)%nat -> nth_error fn m = Some c -> simple c ->
  (forall r, In r (reads c) -> written i m r) -> (forall r, live fn (S m) r -> writes c <> Some r -> r <= n0 \/ written i m r) ->
  (forall r, written i m r -> n0 < r) -> (forall s r, writes c = Some s -> live fn (S m) r -> r <> s -> live fn (S m) s \/ forall t, written i m t -> t < s) ->
  (forall s, writes c = Some s -> n0 < s) -> sound n0 i (S m).
Proof.
  intros [H1 H2 H3] Im E Sc Rd Lv Up Nd Ws. split.
  - intros p r P L. destruct (Nat.eq_dec p (S m)) as [-> | Np].
    + destruct (writes c) as [s |] eqn:W.
      * destruct (Z.eq_dec s r) as [-> | Ns]; [right; exists m, c; split; [lia | auto] |].
        destruct (Lv r L ltac:(congruence)) as [X | X]; [left; split; [exact X | exact L] | right; eapply written_more; [exact X | lia | lia]].
      * destruct (Lv r L ltac:(congruence)) as [X | X]; [left; split; [exact X | exact L] | right; eapply written_more; [exact X | lia | lia]].
    + destruct (H1 p r ltac:(lia) L) as [[X Y] | X]; [| now right].
      apply (live_simple _ _ _ E Sc) in Y as [Y | [_ Y]]; [apply Rd, Up in Y; lia | left; now split].
  - intros p d s r P Ep W L N. destruct (Nat.eq_dec p m) as [-> | Np].
    + rewrite E in Ep. injection Ep as <-. exact (Nd s r W L N).
    + apply (H2 p d s r); auto. lia.
  - intros r R L. apply H3; [exact R |]. apply (back_simple _ _ _ E); [apply Sc | | exact L]. intros W. apply Ws in W. lia.
Qed.
Lemma code_sound n0 cs n1 A R : code n0 cs n1 A R -> forall i, sits i cs -> let j := (i + length cs)%nat in
  (forall r, live fn j r -> r <= n0 \/ In r A) -> (forall s, In s R -> need j s) -> sound n0 i j.
Proof.
  induction 1 as [n | n0 cs n1 A R A' R' C IH S1 S2 S3 | n0 c1 n1 A1 R1 c2 n2 A2 R2 C1 IH1 C2 IH2 | n0 cs n1 A R c n2 W C IH Sc F S1 S2 | n0 cs n1 A R c s C IH Sc Wr I S1 S2
    | n0 cs n1 A R c d s n2 W C IH Sc Wr I S1 Sd F S2 I2 S3
    | n0 c1 n1 A1 R1 j lf c2 n2 A2 R2 d1 jm le lbf c3 n3 A3 R3 d2 lbe C1 IH1 Jj S1 S1' C2 IH2 Sd1 Wd1 S2 S2' Jm Lf C3 IH3 Sd2 Wd2 S3 S3' Le
    | n0 c1 n1 A1 R1 j1 l c2 n2 A2 R2 j2 d1 jm le lb d2 lbe C1 IH1 J1 S1 S1' C2 IH2 J2 S2 S2' Sd1 Wd1 Rd1 Jm Lb Sd2 Wd2 Rd2 Le]; intros i H je HA HR; subst je; cbn zeta in *.
  - cbn [length] in *. rewrite Nat.add_0_r in *. split.
    + intros p r P L. assert (p = i) by lia. subst p. destruct (HA r L) as [X | []]. left. now split.
    + intros p c s r P. lia.
    + auto.
  - apply IH; [exact H | |].
    + intros r L. destruct (HA r L) as [X | X]; [now left | right; auto].
    + intros s I. apply HR. auto.
  - apply sits_app in H as [H1 H2]. rewrite app_length, Nat.add_assoc in *. set (m := (i + length c1)%nat) in *. set (e := (m + length c2)%nat) in *.
    destruct (code_basic _ _ _ _ _ C1 i H1) as [X1 X2 X3 X4 X5]. destruct (code_basic _ _ _ _ _ C2 m H2) as [Y1 Y2 Y3 Y4 Y5]. fold m in X3, X4, X5. fold e in Y3, Y4, Y5.
    assert (B : sound n1 m e).
    { apply IH2; [exact H2 | |].
      - intros r L. destruct (HA r L) as [X | X]; [left; lia |]. apply in_app_iff in X as [X | X]; [left; apply X3 in X; lia | now right].
      - intros s I. apply HR, in_app_iff. now right. }
    assert (Me : (m <= e)%nat) by (subst e; lia).
    assert (K : forall r, live fn m r -> r <= n1 /\ live fn e r) by (intros r; apply sound_start; auto).
    assert (D : sound n0 i m).
    { apply IH1; [exact H1 | |].
      - intros r L. apply K in L as [X Y]. destruct (HA r Y) as [Z | Z]; [now left |]. apply in_app_iff in Z as [Z | Z]; [now right |]. apply Y3 in Z. lia.
      - intros s I. destruct (HR s) as [Z | Z]; [apply in_app_iff; now left | |].
        + left. apply (so_keeps _ _ _ B); [| exact Z]. apply X2, X3 in I. lia.
        + right. intros r L. apply K in L as [_ L]. auto. }
    split.
    + intros p r P L. destruct (Nat.le_gt_cases p m) as [Lt | Ge].
      * destruct (so_live _ _ _ D p r ltac:(lia) L) as [[Z1 Z2] | Z]; [| now right]. apply K in Z2 as [_ Z2]. left. now split.
      * destruct (so_live _ _ _ B p r ltac:(lia) L) as [[Z1 Z2] | Z]; [| right; eapply written_more; [exact Z | subst m; lia | lia]].
        destruct (HA r Z2) as [Q | Q]; [left; now split |]. apply in_app_iff in Q as [Q | Q]; [| apply Y3 in Q; lia]. right. apply X3 in Q as [_ Q]. eapply written_more; [exact Q | lia | lia].
    + intros p c s r P E W L N. destruct (Nat.lt_ge_cases p m) as [Lt | Ge]; [apply (so_needed _ _ _ D p c s r); auto; lia |].
      destruct (so_needed _ _ _ B p c s r ltac:(lia) E W L N) as [Z | Z]; [now left |]. right. intros t T. apply (written_split i m) in T as [T | T]; [| now apply Z].
      assert (n1 < s) by (apply Y4; exists p, c; split; [lia | auto]). apply X4 in T. lia.
    + intros r B0 L. apply (so_keeps _ _ _ D); [exact B0 |]. apply (so_keeps _ _ _ B); [lia | exact L].
  - apply sits_app in H as [H1 H2]. apply sits_cons in H2 as [E _]. destruct (code_basic _ _ _ _ _ C i H1) as [X1 X2 X3 X4 X5]. destruct (fresh_bound _ _ _ _ _ E F) as (F1 & F2 & F3).
    rewrite app_length, Nat.add_assoc in *. cbn [length] in *. rewrite Nat.add_1_r in *. set (m := (i + length cs)%nat) in *.
    assert (Ws : forall s, writes c = Some s -> n1 < s) by (intros s Ws; apply F2, written_one with c; auto).
    assert (Lv : forall r, live fn (S m) r -> writes c <> Some r -> r <= n0 \/ In r A).
    { intros r L Nw. destruct (HA r L) as [X | X]; [now left |]. apply in_app_iff in X as [X | X]; [| now right]. destruct F as [(F & -> & ->) | (F & -> & ->)]; [destruct X |]. destruct X as [<- | []]. congruence. }
    apply (inst_sound n0 i m c); [| subst m; lia | exact E | exact Sc | | | | | ].
    + apply IH; [exact H1 | |].
      * intros r L. apply (live_simple _ _ _ E Sc) in L as [L | [Nw L]]; [right; auto | now apply Lv].
      * intros s I. left. apply reads_live with c; auto.
    + intros r I. apply X3, S1, I.
    + intros r L Nw. destruct (Lv r L Nw) as [Z | Z]; [now left | right; now apply X3].
    + intros r Z. now apply X4.
    + intros s r W' L N. right. intros t T. apply X4 in T. apply Ws in W'. lia.
    + intros s W'. apply Ws in W'. lia.
  - apply sits_app in H as [H1 H2]. apply sits_cons in H2 as [E _]. destruct (code_basic _ _ _ _ _ C i H1) as [X1 X2 X3 X4 X5].
    rewrite app_length, Nat.add_assoc in *. cbn [length] in *. rewrite Nat.add_1_r in *. set (m := (i + length cs)%nat) in *.
    apply (inst_sound n0 i m c); [| subst m; lia | exact E | exact Sc | | | | | ].
    + apply IH; [exact H1 | |].
      * intros r L. apply (live_simple _ _ _ E Sc) in L as [L | [Nw L]]; [right; auto | now apply HA].
      * intros t T. left. apply reads_live with c; auto.
    + intros r Z. apply X3, S1, Z.
    + intros r L Nw. destruct (HA r L) as [Z | Z]; [now left | right; now apply X3].
    + intros r Z. now apply X4.
    + intros t r W' L N. rewrite Wr in W'. injection W' as <-. destruct (HR s (or_introl eq_refl)) as [Z | Z]; [now left |]. destruct (N (Z r L)).
    + intros t W'. rewrite Wr in W'. injection W' as <-. now apply X3.
  - apply sits_app in H as [H1 H2]. apply sits_cons in H2 as [E H2]. apply sits_cons in H2 as [E2 _]. destruct (code_basic _ _ _ _ _ C i H1) as [X1 X2 X3 X4 X5]. destruct (fresh_bound _ _ _ _ _ E2 F) as (F1 & F2 & F3).
    rewrite app_length, Nat.add_assoc in *. cbn [length] in *. set (m := (i + length cs)%nat) in *. replace (m + 2)%nat with (S (S m)) in * by lia.
    assert (Ws : forall t, writes d = Some t -> n1 < t) by (intros t Ws; apply F2, written_one with d; auto).
    assert (Lv : forall r, live fn (S (S m)) r -> writes d <> Some r -> r <= n0 \/ In r A).
    { intros r L Nw. destruct (HA r L) as [X | X]; [now left |]. apply in_app_iff in X as [X | X]; [| now right]. destruct F as [(F & -> & ->) | (F & -> & ->)]; [destruct X |]. destruct X as [<- | []]. congruence. }
    assert (Lm : forall r, live fn (S m) r -> r <= n0 \/ In r A).
    { intros r L. apply (live_simple _ _ _ E2 Sd) in L as [L | [Nw L]]; [right; auto | now apply Lv]. }
    assert (Bm : sound n0 i m).
    { apply IH; [exact H1 | |].
      - intros r L. apply (live_simple _ _ _ E Sc) in L as [L | [Nw L]]; [right; auto | now apply Lm].
      - intros t T. left. destruct (S3 t T) as [Z | [Z1 Z2]]; [now apply reads_live with c |]. apply (back_simple _ _ _ E); [apply Sc | congruence |]. now apply reads_live with d. }
    assert (B1 : sound n0 i (S m)).
    { apply (inst_sound n0 i m c); [exact Bm | subst m; lia | exact E | exact Sc | | | | | ].
      - intros r Z. apply X3, S1, Z.
      - intros r L Nw. destruct (Lm r L) as [Z | Z]; [now left | right; now apply X3].
      - intros r Z. now apply X4.
      - intros t r W' L N. left. rewrite Wr in W'. injection W' as <-. now apply reads_live with d.
      - intros t W'. rewrite Wr in W'. injection W' as <-. now apply X3. }
    assert (Wm : forall r, written i (S m) r -> n0 < r <= n1).
    { intros r Z. apply (written_split i m) in Z as [Z | (q & c' & Q & Eq & Wq)]; [now apply X4 |]. assert (q = m) by lia. subst q. rewrite E in Eq. injection Eq as <-. rewrite Wr in Wq. injection Wq as <-. now apply X3. }
    apply (inst_sound n0 i (S m) d); [exact B1 | subst m; lia | exact E2 | exact Sd | | | | | ].
    + intros r Z. apply S2, X3 in Z as [_ Z]. eapply written_more; [exact Z | lia | lia].
    + intros r L Nw. destruct (Lv r L Nw) as [Z | Z]; [now left | right]. apply X3 in Z as [_ Z]. eapply written_more; [exact Z | lia | lia].
    + intros r Z. now apply Wm.
    + intros t r W' L N. right. intros u U. apply Wm in U. apply Ws in W'. lia.
    + intros t W'. apply Ws in W'. lia.
  - apply sits_app in H as [H1 H]. apply sits_app in H as [Hj H]. apply sits_app in H as [H2 H]. apply sits_app in H as [Hd1 H]. apply sits_app in H as [H3 Hd2]. cbn [length] in *.
    apply sits_cons in Hj as [Ej _]. apply sits_cons in Hd1 as [Ed1 Hd1]. apply sits_cons in Hd1 as [Ejm Hd1]. apply sits_cons in Hd1 as [Elf _]. apply sits_cons in Hd2 as [Ed2 Hd2]. apply sits_cons in Hd2 as [Ele _].
    destruct (code_basic _ _ _ _ _ C1 _ H1) as [X1 X2 X3 X4 X5]. destruct (code_basic _ _ _ _ _ C2 _ H2) as [Y1 Y2 Y3 Y4 Y5]. destruct (code_basic _ _ _ _ _ C3 _ H3) as [Z1 Z2 Z3 Z4 Z5].
    specialize (IH1 _ H1). specialize (IH2 _ H2). specialize (IH3 _ H3).
    repeat (rewrite app_length in * || cbn [length] in * ).
    set (p1 := (i + length c1)%nat) in *. set (p2 := (p1 + 1)%nat) in *. set (p3 := (p2 + length c2)%nat) in *. set (p6 := (p3 + 3)%nat) in *. set (p7 := (p6 + length c3)%nat) in *.
    replace (i + _)%nat with (S (S p7)) in * by (subst p7 p6 p3 p2 p1; lia).
    assert (P12 : p2 = S p1) by (subst p2; lia). assert (P36 : p6 = S (S (S p3))) by (subst p6; lia). assert (Q1 : (i <= p1)%nat) by (subst p1; lia). assert (Q2 : (p2 <= p3)%nat) by (subst p3; lia). assert (Q3 : (p6 <= p7)%nat) by (subst p7; lia).
    clearbody p1 p2 p3 p6 p7. set (d := n1 + 1) in *. set (je := S (S p7)) in *.
    assert (L8 : forall r, live fn (S p7) r -> live fn je r) by (intros r; apply (live_label _ _ _ _ Ele Le)).
    assert (L8' : forall r, live fn je r -> live fn (S p7) r) by (intros r; apply (back_simple _ _ _ Ele); [destruct (label_simple _ _ Le) as [[_ G] _]; exact G | rewrite (label_writes _ _ Le); discriminate]).
    assert (L4 : forall r, live fn (S p3) r -> live fn je r) by (intros r L; apply L8; apply (live_jmp _ _ _ _ _ _ Ejm Jm Ele Le L)).
    assert (L4' : forall r, live fn je r -> live fn (S p3) r) by (intros r L; apply L8' in L; destruct Jm as (G1 & G2 & G3 & _); apply (back_jump _ _ _ _ _ _ Ejm G1 G3 Ele Le L)).
    assert (L7 : forall r, live fn p7 r -> In r A3 \/ r <= n0 /\ live fn je r).
    { intros r L. apply (live_simple _ _ _ Ed2 Sd2) in L as [L | [W L]]; [left; auto |]. apply L8 in L. destruct (HA r L) as [B | [B | []]]; [right; now split |]. congruence. }
    assert (B3 : sound n2 p6 p7).
    { apply IH3.
      - intros r L. destruct (L7 r L) as [B | [B _]]; [now right | left; lia].
      - intros s I. left. apply reads_live with d2; auto. }
    assert (L6 : forall r, live fn p6 r -> r <= n0 /\ live fn je r).
    { intros r L. destruct (sound_start _ _ _ _ Q3 B3 L) as [B L']. destruct (L7 r L') as [B' | B']; [apply Z3 in B'; lia | exact B']. }
    assert (L5 : forall r, live fn (S (S p3)) r -> r <= n0 /\ live fn je r).
    { intros r L. apply (live_label _ _ _ _ Elf Lf) in L. rewrite <- P36 in L. now apply L6. }
    assert (L3 : forall r, live fn p3 r -> In r A2 \/ r <= n0 /\ live fn je r).
    { intros r L. apply (live_simple _ _ _ Ed1 Sd1) in L as [L | [W L]]; [left; auto |]. apply L4 in L. destruct (HA r L) as [B | [B | []]]; [right; now split |]. congruence. }
    assert (B2 : sound d p2 p3).
    { apply IH2.
      - intros r L. destruct (L3 r L) as [B | [B _]]; [now right | left; lia].
      - intros s I. left. apply reads_live with d1; auto. }
    assert (L2 : forall r, live fn p2 r -> r <= n0 /\ live fn je r).
    { intros r L. destruct (sound_start _ _ _ _ Q2 B2 L) as [B L']. destruct (L3 r L') as [B' | B']; [apply Y3 in B'; lia | exact B']. }
    assert (L1 : forall r, live fn p1 r -> In r A1 \/ r <= n0 /\ live fn je r).
    { intros r L. destruct (live_jump _ _ _ _ _ _ Ej Jj Elf Lf L) as [B | [B | B]]; [left; auto | right; apply L2; now rewrite P12 | right; now apply L5]. }
    assert (B1 : sound n0 i p1).
    { apply IH1.
      - intros r L. destruct (L1 r L) as [B | [B _]]; [now right | now left].
      - intros s I. left. apply reads_live with j; auto. }
    assert (Nd : need je d) by (apply HR; now left).
    assert (Nj : forall t, written p1 p2 t -> False) by (intros t (q & c & Q & E & W); assert (q = p1) by lia; subst q; rewrite Ej in E; injection E as <-; destruct Jj as (_ & _ & Wj); congruence).
    assert (W3 : forall t, written i p3 t -> n0 < t <= n2).
    { intros t T. apply (written_split i p1) in T as [T | T]; [apply X4 in T; lia |]. apply (written_split p1 p2) in T as [T | T]; [now apply Nj in T | apply Y4 in T; lia]. }
    assert (W6 : forall t, written i p6 t -> n0 < t <= n2).
    { intros t T. apply (written_split i p3) in T as [T | (q & c & Q & E & W)]; [now apply W3 |].
      assert (Cs : q = p3 \/ q = S p3 \/ q = S (S p3)) by lia. destruct Cs as [-> | [-> | ->]].
      - rewrite Ed1 in E. injection E as <-. rewrite Wd1 in W. injection W as <-. subst d. lia.
      - rewrite Ejm in E. injection E as <-. destruct Jm as (_ & _ & Wj & _). congruence.
      - rewrite Elf in E. injection E as <-. apply label_writes in Lf. congruence. }
    split.
    + intros p r P L.
      assert (Cs : (i <= p <= p1 \/ p2 <= p <= p3 \/ p = S p3 \/ p = S (S p3) \/ p6 <= p <= p7 \/ p = S p7 \/ p = je)%nat) by (subst je; lia).
      destruct Cs as [Q | [Q | [-> | [-> | [Q | [-> | ->]]]]]].
      * destruct (so_live _ _ _ B1 p r Q L) as [[B L'] | B]; [| now right]. destruct (L1 r L') as [B' | B']; [apply X3 in B'; lia | now left].
      * destruct (so_live _ _ _ B2 p r Q L) as [[B L'] | B]; [| right; eapply written_more; [exact B | lia | lia]]. destruct (L3 r L') as [B' | B']; [apply Y3 in B'; lia | now left].
      * apply L4 in L. destruct (HA r L) as [B | [<- | []]]; [left; now split | right]. exists p3, d1. split; [lia | auto].
      * left. now apply L5.
      * destruct (so_live _ _ _ B3 p r Q L) as [[B L'] | B]; [| right; eapply written_more; [exact B | lia | lia]]. destruct (L7 r L') as [B' | B']; [apply Z3 in B'; lia | now left].
      * apply L8 in L. destruct (HA r L) as [B | [<- | []]]; [left; now split | right]. exists p7, d2. split; [lia | auto].
      * destruct (HA r L) as [B | [<- | []]]; [left; now split | right]. exists p7, d2. split; [subst je; lia | auto].
    + intros p c s r P E W L N.
      assert (Cs : (i <= p < p1 \/ p = p1 \/ p2 <= p < p3 \/ p = p3 \/ p = S p3 \/ p = S (S p3) \/ p6 <= p < p7 \/ p = p7 \/ p = S p7)%nat) by (subst je; lia).
      destruct Cs as [Q | [-> | [Q | [-> | [-> | [-> | [Q | [-> | ->]]]]]]]].
      * now apply (so_needed _ _ _ B1 p c s r).
      * rewrite Ej in E. injection E as <-. destruct Jj as (_ & _ & Wj). congruence.
      * destruct (so_needed _ _ _ B2 p c s r Q E W L N) as [Z | Z]; [now left |]. right. intros t T.
        assert (d < s) by (apply Y4; exists p, c; split; [lia | auto]).
        apply (written_split i p1) in T as [T | T]; [apply X4 in T; subst d; lia |]. apply (written_split p1 p2) in T as [T | T]; [now apply Nj in T | now apply Z].
      * rewrite Ed1 in E. injection E as <-. rewrite Wd1 in W. injection W as <-. destruct Nd as [Nd | Nd]; [left; now apply L4' |]. destruct N. apply Nd. now apply L4.
      * rewrite Ejm in E. injection E as <-. destruct Jm as (_ & _ & Wj & _). congruence.
      * rewrite Elf in E. injection E as <-. apply label_writes in Lf. congruence.
      * destruct (so_needed _ _ _ B3 p c s r Q E W L N) as [Z | Z]; [now left |]. right. intros t T.
        assert (n2 < s) by (apply Z4; exists p, c; split; [lia | auto]). apply (written_split i p6) in T as [T | T]; [apply W6 in T; lia | now apply Z].
      * rewrite Ed2 in E. injection E as <-. rewrite Wd2 in W. injection W as <-. destruct Nd as [Nd | Nd]; [left; now apply L8' |]. destruct N. apply Nd. now apply L8.
      * rewrite Ele in E. injection E as <-. apply label_writes in Le. congruence.
    + intros r B L. apply (so_keeps _ _ _ B1); [exact B |]. destruct Jj as (G1 & G2 & G3). apply (back_jump _ _ _ _ _ _ Ej G1 G3 Elf Lf).
      apply (back_simple _ _ _ Elf); [destruct (label_simple _ _ Lf) as [[_ G] _]; exact G | rewrite (label_writes _ _ Lf); discriminate |]. rewrite <- P36.
      apply (so_keeps _ _ _ B3); [lia |]. apply (back_simple _ _ _ Ed2); [apply Sd2 | rewrite Wd2; intros Q; injection Q as <-; subst d; lia |]. now apply L8'.
  - apply sits_app in H as [H1 H]. apply sits_app in H as [Hj H]. apply sits_app in H as [H2 H]. cbn [length] in *.
    apply sits_cons in Hj as [Ej1 _]. apply sits_cons in H as [Ej2 H]. apply sits_cons in H as [Ed1 H]. apply sits_cons in H as [Ejm H]. apply sits_cons in H as [Elb H]. apply sits_cons in H as [Ed2 H]. apply sits_cons in H as [Ele _].
    destruct (code_basic _ _ _ _ _ C1 _ H1) as [X1 X2 X3 X4 X5]. destruct (code_basic _ _ _ _ _ C2 _ H2) as [Y1 Y2 Y3 Y4 Y5].
    specialize (IH1 _ H1). specialize (IH2 _ H2).
    repeat (rewrite app_length in * || cbn [length] in * ).
    set (p1 := (i + length c1)%nat) in *. set (p2 := (p1 + 1)%nat) in *. set (p3 := (p2 + length c2)%nat) in *.
    replace (i + _)%nat with (S (S (S (S (S (S p3)))))) in * by (subst p3 p2 p1; lia).
    assert (P12 : p2 = S p1) by (subst p2; lia). assert (Q1 : (i <= p1)%nat) by (subst p1; lia). assert (Q2 : (p2 <= p3)%nat) by (subst p3; lia).
    clearbody p1 p2 p3. set (d := n2 + 1) in *. set (q1 := S p3) in *. set (q2 := S q1) in *. set (q3 := S q2) in *. set (q4 := S q3) in *. set (q5 := S q4) in *. set (je := S q5) in *.
    assert (L5 : forall r, live fn q5 r -> live fn je r) by (intros r; apply (live_label _ _ _ _ Ele Le)).
    assert (L5' : forall r, live fn je r -> live fn q5 r) by (intros r; apply (back_simple _ _ _ Ele); [destruct (label_simple _ _ Le) as [[_ G] _]; exact G | rewrite (label_writes _ _ Le); discriminate]).
    assert (L2 : forall r, live fn q2 r -> live fn je r) by (intros r L; apply L5; apply (live_jmp _ _ _ _ _ _ Ejm Jm Ele Le L)).
    assert (L2' : forall r, live fn je r -> live fn q2 r) by (intros r L; apply L5' in L; destruct Jm as (G1 & G2 & G3 & _); apply (back_jump _ _ _ _ _ _ Ejm G1 G3 Ele Le L)).
    assert (L4 : forall r, live fn q4 r -> r <= n0 /\ live fn je r).
    { intros r L. apply (live_simple _ _ _ Ed2 Sd2) in L as [L | [W L]]; [rewrite Rd2 in L; destruct L |]. apply L5 in L. destruct (HA r L) as [B | [B | []]]; [now split |]. congruence. }
    assert (L3 : forall r, live fn q3 r -> r <= n0 /\ live fn je r) by (intros r L; apply (live_label _ _ _ _ Elb Lb) in L; now apply L4).
    assert (L1 : forall r, live fn q1 r -> r <= n0 /\ live fn je r).
    { intros r L. apply (live_simple _ _ _ Ed1 Sd1) in L as [L | [W L]]; [rewrite Rd1 in L; destruct L |]. apply L2 in L. destruct (HA r L) as [B | [B | []]]; [now split |]. congruence. }
    assert (L0 : forall r, live fn p3 r -> In r A2 \/ r <= n0 /\ live fn je r).
    { intros r L. destruct (live_jump _ _ _ _ _ _ Ej2 J2 Elb Lb L) as [B | [B | B]]; [left; auto | right; now apply L1 | right; now apply L3]. }
    assert (B2 : sound n1 p2 p3).
    { apply IH2.
      - intros r L. destruct (L0 r L) as [B | [B _]]; [now right | left; lia].
      - intros s I. left. apply reads_live with j2; auto. }
    assert (Lp2 : forall r, live fn p2 r -> r <= n0 /\ live fn je r).
    { intros r L. destruct (sound_start _ _ _ _ Q2 B2 L) as [B L']. destruct (L0 r L') as [B' | B']; [apply Y3 in B'; lia | exact B']. }
    assert (Lp1 : forall r, live fn p1 r -> In r A1 \/ r <= n0 /\ live fn je r).
    { intros r L. destruct (live_jump _ _ _ _ _ _ Ej1 J1 Elb Lb L) as [B | [B | B]]; [left; auto | right; apply Lp2; now rewrite P12 | right; now apply L3]. }
    assert (B1 : sound n0 i p1).
    { apply IH1.
      - intros r L. destruct (Lp1 r L) as [B | [B _]]; [now right | now left].
      - intros s I. left. apply reads_live with j1; auto. }
    assert (Nd : need je d) by (apply HR; now left).
    assert (Nj : forall t, written p1 p2 t -> False) by (intros t (q & c & Q & E & W); assert (q = p1) by lia; subst q; rewrite Ej1 in E; injection E as <-; destruct J1 as (_ & _ & Wj); congruence).
    assert (W3 : forall t, written i q1 t -> n0 < t <= n2).
    { intros t T. apply (written_split i p1) in T as [T | T]; [apply X4 in T; lia |]. apply (written_split p1 p2) in T as [T | T]; [now apply Nj in T |]. apply (written_split p2 p3) in T as [T | (q & c & Q & E & W)]; [apply Y4 in T; lia |].
      assert (q = p3) by (subst q1; lia). subst q. rewrite Ej2 in E. injection E as <-. destruct J2 as (_ & _ & Wj). congruence. }
    split.
    + intros p r P L.
      assert (Cs : (i <= p <= p1 \/ p2 <= p <= p3 \/ p = q1 \/ p = q2 \/ p = q3 \/ p = q4 \/ p = q5 \/ p = je)%nat) by (subst je q5 q4 q3 q2 q1; lia).
      destruct Cs as [Q | [Q | [-> | [-> | [-> | [-> | [-> | ->]]]]]]].
      * destruct (so_live _ _ _ B1 p r Q L) as [[B L'] | B]; [| now right]. destruct (Lp1 r L') as [B' | B']; [apply X3 in B'; lia | now left].
      * destruct (so_live _ _ _ B2 p r Q L) as [[B L'] | B]; [| right; eapply written_more; [exact B | lia | lia]]. destruct (L0 r L') as [B' | B']; [apply Y3 in B'; lia | now left].
      * left. now apply L1.
      * apply L2 in L. destruct (HA r L) as [B | [<- | []]]; [left; now split | right]. exists q1, d1. split; [subst q2 q1; lia | auto].
      * left. now apply L3.
      * left. now apply L4.
      * apply L5 in L. destruct (HA r L) as [B | [<- | []]]; [left; now split | right]. exists q1, d1. split; [subst q5 q4 q3 q2 q1; lia | auto].
      * destruct (HA r L) as [B | [<- | []]]; [left; now split | right]. exists q1, d1. split; [subst je q5 q4 q3 q2 q1; lia | auto].
    + intros p c s r P E W L N.
      assert (Cs : (i <= p < p1 \/ p = p1 \/ p2 <= p < p3 \/ p = p3 \/ p = q1 \/ p = q2 \/ p = q3 \/ p = q4 \/ p = q5)%nat) by (subst je q5 q4 q3 q2 q1; lia).
      destruct Cs as [Q | [-> | [Q | [-> | [-> | [-> | [-> | [-> | ->]]]]]]]].
      * now apply (so_needed _ _ _ B1 p c s r).
      * rewrite Ej1 in E. injection E as <-. destruct J1 as (_ & _ & Wj). congruence.
      * destruct (so_needed _ _ _ B2 p c s r Q E W L N) as [Z | Z]; [now left |]. right. intros t T.
        assert (n1 < s) by (apply Y4; exists p, c; split; [lia | auto]).
        apply (written_split i p1) in T as [T | T]; [apply X4 in T; lia |]. apply (written_split p1 p2) in T as [T | T]; [now apply Nj in T | now apply Z].
      * rewrite Ej2 in E. injection E as <-. destruct J2 as (_ & _ & Wj). congruence.
      * rewrite Ed1 in E. injection E as <-. rewrite Wd1 in W. injection W as <-. right. intros t T. apply W3 in T. subst d. lia.
      * rewrite Ejm in E. injection E as <-. destruct Jm as (_ & _ & Wj & _). congruence.
      * rewrite Elb in E. injection E as <-. apply label_writes in Lb. congruence.
      * rewrite Ed2 in E. injection E as <-. rewrite Wd2 in W. injection W as <-. destruct Nd as [Nd | Nd]; [left; now apply L5' |]. destruct N. apply Nd. now apply L5.
      * rewrite Ele in E. injection E as <-. apply label_writes in Le. congruence.
    + intros r B L. apply (so_keeps _ _ _ B1); [exact B |]. destruct J1 as (G1 & G2 & G3). apply (back_jump _ _ _ _ _ _ Ej1 G1 G3 Elb Lb).
      apply (back_simple _ _ _ Elb); [destruct (label_simple _ _ Lb) as [[_ G] _]; exact G | rewrite (label_writes _ _ Lb); discriminate |].
      apply (back_simple _ _ _ Ed2); [apply Sd2 | rewrite Wd2; intros Q; injection Q as <-; subst d; lia |]. now apply L5'.
Qed.
End At.
