(** Basic blocks, the flow of registers between them, and liveness *)
From Verif Require Import Base MapModel SetModel ImmcModel ImmcSem RegallocModel ISetProofs ElabProofs TypeProofs LabelSpec RegSpec RegProofs.
Open Scope Z_scope.

(** * Blocks *)
Definition tail_ok (l : list immc) : Prop := forall pre c, l = pre ++ [c] -> is_label c = false.
Lemma tail_rest c l : tail_ok (c :: l) -> tail_ok l.
Proof. intros T pre x E. apply (T (c :: pre) x). now rewrite E. Qed.
Definition opening (cur : list immc) : Prop := (forall k c, nth_error cur (S k) = Some c -> is_label c = false) /\ (forall c, In c cur -> immc_isjumpinst c = false).
Definition shape (cs : list immc) : Prop := cs <> [] /\ (forall k c, nth_error cs (S k) = Some c -> is_label c = false) /\ (forall k c, nth_error cs k = Some c -> (S k < length cs)%nat -> immc_isjumpinst c = false).
Definition fresh_block (b : block) : Prop := shape (b_immcs b) /\ b_in b = new_set /\ b_out b = new_set /\ b_succ b = new_set.
Lemma opening_shape cur : opening cur -> cur <> [] -> shape cur.
Proof. intros [A B] N. split; [exact N |]. split; [exact A |]. intros k c E _. eapply B, nth_error_In, E. Qed.
Lemma close_ok cur : opening cur -> code_of_blocks (close_block cur) = cur /\ Forall fresh_block (close_block cur).
Proof.
  intros O. destruct cur as [| c cur]; [split; [reflexivity | constructor] |]. cbn. rewrite app_nil_r. split; [reflexivity |]. constructor; [| constructor].
  split; [apply opening_shape; [exact O | discriminate] | auto].
Qed.
Lemma close_jump cur c : opening cur -> is_label c = false -> code_of_blocks (close_block (cur ++ [c])) = cur ++ [c] /\ Forall fresh_block (close_block (cur ++ [c])).
Proof.
  intros [A B] L. assert (N : cur ++ [c] <> []) by (destruct cur; discriminate). assert (E : close_block (cur ++ [c]) = [new_basicblock (cur ++ [c])]) by (destruct cur; reflexivity). rewrite E. cbn. rewrite app_nil_r. split; [reflexivity |]. constructor; [| constructor].
  split; [| auto]. cbn [b_immcs new_basicblock]. split; [exact N |]. split.
  - intros k x X. destruct (Nat.lt_ge_cases (S k) (length cur)) as [H | H]; [rewrite nth_error_app1 in X by exact H; eauto |]. rewrite nth_error_app2 in X by exact H. destruct (S k - length cur)%nat as [| m]; [injection X as <-; exact L | destruct m; discriminate X].
  - intros k x X H. rewrite app_length in H. cbn in H. rewrite nth_error_app1 in X by lia. eapply B, nth_error_In, X.
Qed.
Lemma blocks_ok : forall l cur, opening cur -> tail_ok l -> code_of_blocks (create_basic_blocks l cur) = cur ++ l /\ Forall fresh_block (create_basic_blocks l cur).
Proof.
  induction l as [| c l IH]; intros cur O T; cbn [create_basic_blocks].
  - rewrite app_nil_r. now apply close_ok.
  - assert (T' := tail_rest _ _ T). destruct (immc_isjumpinst c) eqn:J.
    + destruct (IH []) as [E F]; [split; [intros k x X; destruct k; discriminate X | intros x []] | exact T' |].
      destruct (close_jump cur c O) as [E1 F1]; [destruct c; try discriminate J; reflexivity |]. unfold code_of_blocks in *. rewrite flat_map_app, E1, E, <- app_assoc. split; [reflexivity |]. now apply Forall_app.
    + destruct (is_label c) eqn:L.
      * destruct l as [| c' l]; [specialize (T [] c eq_refl); congruence |].
        destruct (IH [c]) as [E F]; [split; [intros k x X; destruct k; discriminate X | intros x [<- | []]; exact J] | exact T' |].
        destruct (close_ok cur O) as [E1 F1]. unfold code_of_blocks in *. rewrite flat_map_app, E1, E. split; [reflexivity |]. now apply Forall_app.
      * destruct (IH (cur ++ [c])) as [E F].
        { destruct O as [A B]. split.
          - intros k x X. destruct (Nat.lt_ge_cases (S k) (length cur)) as [H | H]; [rewrite nth_error_app1 in X by exact H; eauto |]. rewrite nth_error_app2 in X by exact H. destruct (S k - length cur)%nat as [| m]; [injection X as <-; exact L | destruct m; discriminate X].
          - intros x X. apply in_app_or in X as [X | [<- | []]]; [now apply B | exact J]. }
        { exact T'. }
        rewrite E, <- app_assoc. split; [reflexivity | exact F].
Qed.

(** * Where the blocks are *)
Fixpoint start (g : list block) (i : nat) : nat :=
  match i, g with S i, b :: r => (length (b_immcs b) + start r i)%nat | _, _ => O end.
Lemma block_code : forall g i b k, nth_error g i = Some b -> (k < length (b_immcs b))%nat -> nth_error (code_of_blocks g) (start g i + k) = nth_error (b_immcs b) k.
Proof.
  unfold code_of_blocks. induction g as [| x g IH]; intros i b k E L; destruct i; try discriminate E.
  - injection E as ->. cbn. now rewrite nth_error_app1.
  - cbn [nth_error start flat_map] in *. rewrite nth_error_app2 by lia. rewrite <- (IH _ _ _ E L). f_equal. lia.
Qed.
Lemma find_block : forall g p c, nth_error (code_of_blocks g) p = Some c -> exists i b k, nth_error g i = Some b /\ (k < length (b_immcs b))%nat /\ p = (start g i + k)%nat.
Proof.
  unfold code_of_blocks. induction g as [| x g IH]; intros p c E; [destruct p; discriminate E |]. cbn [flat_map] in E.
  destruct (Nat.lt_ge_cases p (length (b_immcs x))) as [L | L]; [exists O, x, p; auto |]. rewrite nth_error_app2 in E by exact L. destruct (IH _ _ E) as (i & b & k & A & B & C). exists (S i), b, k. cbn. split; [exact A |]. split; [exact B | lia].
Qed.
Lemma start_S : forall g i b, nth_error g i = Some b -> start g (S i) = (start g i + length (b_immcs b))%nat.
Proof. induction g as [| x g IH]; intros i b E; destruct i; try discriminate E; [injection E as ->; destruct g; cbn; lia |]. cbn [nth_error] in E. apply IH in E. cbn [start] in *. lia. Qed.
Lemma same_start : forall g g', map b_immcs g = map b_immcs g' -> forall i, start g i = start g' i.
Proof. induction g as [| x g IH]; intros [| y g'] E i; try discriminate E; [reflexivity |]. injection E as E1 E2. destruct i; [reflexivity |]. cbn. now rewrite E1, (IH _ E2). Qed.
Lemma same_code : forall g g', map b_immcs g = map b_immcs g' -> code_of_blocks g = code_of_blocks g'.
Proof. unfold code_of_blocks. intros g g' E. rewrite !flat_map_concat_map. now rewrite E. Qed.

(** * Edges *)
Definition head_label (b : block) : option name := match b_immcs b with IMMC_LABEL _ _ n :: _ => Some n | _ => None end.
Lemma label_blocks_cons b l i acc : label_blocks (b :: l) i acc = label_blocks l (i + 1) (match head_label b with Some n => (n, i) :: acc | None => acc end).
Proof. unfold head_label. cbn [label_blocks]. destruct (b_immcs b) as [| c r]; [reflexivity |]. destruct c; reflexivity. Qed.
Lemma find_skip : forall l i acc n, (forall b, In b l -> head_label b <> Some n) -> find_label (label_blocks l i acc) n = find_label acc n.
Proof.
  induction l as [| b l IH]; intros i acc n N; [reflexivity |]. rewrite label_blocks_cons, IH by (intros x I; apply N; now right).
  destruct (head_label b) as [m |] eqn:H; [| reflexivity]. cbn. destruct (name_eqb m n) eqn:E; [| reflexivity]. apply name_eqb_eq in E. subst. destruct (N b (or_introl eq_refl) H).
Qed.
Lemma find_here : forall l i acc n k b, nth_error l k = Some b -> head_label b = Some n -> (forall j x, nth_error l j = Some x -> head_label x = Some n -> j = k) -> find_label (label_blocks l i acc) n = Some (i + Z.of_nat k).
Proof.
  induction l as [| x l IH]; intros i acc n k b E H U; destruct k; try discriminate E; rewrite label_blocks_cons.
  - injection E as ->. rewrite H, find_skip.
    + cbn. rewrite (proj2 (name_eqb_eq n n) eq_refl). f_equal. lia.
    + intros y I Y. apply In_nth_error in I as (j & J). specialize (U (S j) y J Y). discriminate U.
  - cbn [nth_error] in E. rewrite (IH _ _ n k b E H); [f_equal; lia |]. intros j y J Y. specialize (U (S j) y J Y). lia.
Qed.
Lemma label_at_nth : forall fn n p, label_at n fn = Some p -> exists t v, nth_error fn p = Some (IMMC_LABEL t v n).
Proof.
  induction fn as [| c fn IH]; intros n p H; [discriminate H |]. cbn [label_at] in H.
  assert (R : option_map S (label_at n fn) = Some p -> exists t v, nth_error (c :: fn) p = Some (IMMC_LABEL t v n)).
  { destruct (label_at n fn) as [q |] eqn:E; [| discriminate]. intros X. injection X as <-. exact (IH _ _ E). }
  destruct c; try (now apply R). destruct (name_eqb n n0) eqn:E; [| now apply R]. injection H as <-. apply name_eqb_eq in E. subst. cbn. eauto.
Qed.
Lemma label_once : forall fn t v t' v' n p q, NoDup (labels fn) -> nth_error fn p = Some (IMMC_LABEL t v n) -> nth_error fn q = Some (IMMC_LABEL t' v' n) -> p = q.
Proof.
  assert (In_l : forall fn t v n p, nth_error fn p = Some (IMMC_LABEL t v n) -> In n (labels fn)).
  { induction fn as [| c fn IH]; intros t v n p E; destruct p; try discriminate E; [injection E as ->; now left |]. cbn [nth_error] in E. apply IH in E. destruct c; cbn; auto. }
  induction fn as [| c fn IH]; intros t v t' v' n p q N P Q; [destruct p; discriminate P |].
  assert (N' : NoDup (labels fn)) by (destruct c; cbn in N; auto; now inversion N).
  destruct p, q; auto.
  - injection P as ->. cbn in N, Q. apply In_l in Q. inversion N; contradiction.
  - injection Q as ->. cbn in N, P. apply In_l in P. inversion N; contradiction.
  - f_equal. eapply IH; eauto.
Qed.

Definition succ_ok (m : list (name * Z)) (n i : Z) (b b' : block) : Prop :=
  b_immcs b' = b_immcs b /\ b_in b' = b_in b /\ b_out b' = b_out b /\ iinv (b_succ b') /\
  exists c, last_error (b_immcs b) = Some c /\
    (immc_isjumpinst c = true -> forall nm, goes_to c = Some nm -> exists t, find_label m nm = Some t /\ imem (b_succ b') t) /\
    (i < n - 1 -> goes_on c = true -> imem (b_succ b') (i + 1)).
Lemma connect_ok m n i b b' : connect_block m n i b = Ok b' -> b_succ b = new_set -> succ_ok m n i b b'.
Proof.
  unfold connect_block. intros H E0. rewrite E0 in H. apply bind_ok in H as (c & Hc & H). apply deref_ok in Hc. apply bind_ok in H as (s1 & H1 & H). apply bind_ok in H as (s2 & H2 & H). injection H as <-. unfold succ_ok. cbn [b_immcs b_in b_out b_succ].
  assert (X : iinv s1 /\ (immc_isjumpinst c = true -> forall nm, goes_to c = Some nm -> exists t, find_label m nm = Some t /\ imem s1 t)).
  { destruct (immc_isjumpinst c) eqn:J.
    - destruct c as [t d f g | | |]; try discriminate J. destruct d as [d |]; [| discriminate H1]. destruct d; try discriminate H1. apply bind_ok in H1 as (tg & Ht & H1). apply deref_ok in Ht. destruct (iadd_ok _ _ _ inew_inv H1) as [A B]. split; [exact A |].
      intros _ nm Eq. assert (nm = n0) by (cbn in Eq; destruct t; congruence). subst nm. exists tg. split; [exact Ht |]. apply B. now left.
    - injection H1 as <-. split; [apply inew_inv | discriminate]. }
  destruct X as [I1 X1].
  assert (Y : iinv s2 /\ (forall x, imem s1 x -> imem s2 x) /\ (i < n - 1 -> goes_on c = true -> imem s2 (i + 1))).
  { destruct (_ && _) eqn:F in H2.
    - destruct (iadd_ok _ _ _ I1 H2) as [A B]. split; [exact A |]. split; [intros x Hx; apply B; now right | intros _ _; apply B; now left].
    - injection H2 as <-. split; [exact I1 |]. split; [auto |]. intros L G. apply Bool.andb_false_iff in F as [F | F]; [lia |]. destruct c as [t d f g | | |]; try discriminate F. destruct t; try discriminate F. discriminate G. }
  destruct Y as (I2 & Y1 & Y2). split; [reflexivity |]. split; [reflexivity |]. split; [reflexivity |]. split; [exact I2 |]. exists c. split; [exact Hc |]. split; [| exact Y2].
  intros J nm Eq. destruct (X1 J nm Eq) as (t & A & B). eauto.
Qed.
Lemma connect_loop_ok m n : forall l i l', connect_loop m n i l = Ok l' -> Forall fresh_block l -> length l' = length l /\ forall k b', nth_error l' k = Some b' -> exists b, nth_error l k = Some b /\ fresh_block b /\ succ_ok m n (i + Z.of_nat k) b b'.
Proof.
  induction l as [| b l IH]; intros i l' H F; cbn [connect_loop] in H.
  - injection H as <-. split; [reflexivity |]. intros k b' E. destruct k; discriminate E.
  - apply bind_ok in H as (b1 & H1 & H). apply bind_ok in H as (r & H2 & H). injection H as <-. assert (F0 := Forall_inv F). destruct (IH _ _ H2 (Forall_inv_tail F)) as [Ln A]. split; [cbn; lia |].
    intros [| k] b' E.
    + injection E as <-. exists b. split; [reflexivity |]. split; [exact F0 |]. replace (i + Z.of_nat 0) with i by lia. apply connect_ok; [exact H1 | apply F0].
    + destruct (A _ _ E) as (b0 & A1 & A2 & A3). exists b0. split; [exact A1 |]. split; [exact A2 |]. replace (i + Z.of_nat (S k)) with (i + 1 + Z.of_nat k) by lia. exact A3.
Qed.
Lemma map_immcs_eq : forall l l' : list block, length l' = length l -> (forall k b', nth_error l' k = Some b' -> exists b, nth_error l k = Some b /\ b_immcs b' = b_immcs b) -> map b_immcs l' = map b_immcs l.
Proof.
  induction l as [| b l IH]; intros [| b' l'] L A; try discriminate L; [reflexivity |]. destruct (A O b' eq_refl) as (x & X & Y). injection X as <-. cbn. rewrite Y. f_equal. apply IH; [now injection L |]. intros k y E. exact (A (S k) y E).
Qed.
Record graph (fn : list immc) (g : list block) : Prop := {
  gr_code : code_of_blocks g = fn;
  gr_shape : forall i b, nth_error g i = Some b -> shape (b_immcs b) /\ iinv (b_succ b) /\ iinv (b_in b) /\ iinv (b_out b);
  gr_jump : forall i b c nm p, nth_error g i = Some b -> last_error (b_immcs b) = Some c -> immc_isjumpinst c = true -> goes_to c = Some nm -> label_at nm fn = Some p ->
    exists j, imem (b_succ b) (Z.of_nat j) /\ (j < length g)%nat /\ start g j = p;
  gr_next : forall i b c, nth_error g i = Some b -> last_error (b_immcs b) = Some c -> goes_on c = true -> (S i < length g)%nat -> imem (b_succ b) (Z.of_nat (S i)) }.
Lemma connected fn g : tail_ok fn -> NoDup (labels fn) -> connect_basic_blocks (create_basic_blocks fn []) = Ok g -> graph fn g.
Proof.
  intros T ND H. destruct (blocks_ok fn []) as [E F]; [split; [intros k x X; destruct k; discriminate X | intros x []] | exact T |]. cbn in E. set (l := create_basic_blocks fn []) in *.
  unfold connect_basic_blocks in H. destruct (connect_loop_ok _ _ _ _ _ H F) as [Ln A].
  assert (Mp : map b_immcs g = map b_immcs l). { apply map_immcs_eq; [exact Ln |]. intros k b' X. destruct (A _ _ X) as (b & B1 & _ & B2). exists b. split; [exact B1 | apply B2]. }
  assert (Sh : forall i b, nth_error g i = Some b -> shape (b_immcs b) /\ iinv (b_succ b) /\ iinv (b_in b) /\ iinv (b_out b)).
  { intros i b X. destruct (A _ _ X) as (b0 & _ & (S1 & S2 & S3 & _) & (Q1 & Q2 & Q3 & Q4 & _)). rewrite Q1, Q2, Q3, S2, S3. split; [exact S1 |]. split; [exact Q4 |]. split; apply inew_inv. }
  split.
  - rewrite (same_code _ _ Mp). exact E.
  - exact Sh.
  - intros i b c nm p X Lc J G La. destruct (A _ _ X) as (b0 & X0 & _ & (Q1 & _ & _ & _ & c' & Lc' & Q5 & _)). rewrite Q1, Lc' in Lc. injection Lc as ->. destruct (Q5 J _ G) as (t & Ft & It).
    destruct (label_at_nth _ _ _ La) as (ty & v & Lp). assert (Lp' := Lp). rewrite <- E in Lp'. destruct (find_block _ _ _ Lp') as (j & bj & k & Bj & Lk & Pk). rewrite Pk, (block_code _ _ _ _ Bj Lk) in Lp'.
    assert (In bj l) by (eapply nth_error_In, Bj). assert (k = O). { destruct k as [| k]; [reflexivity |]. rewrite Forall_forall in F. destruct (F _ H0) as [(_ & S2 & _) _]. apply S2 in Lp'. discriminate Lp'. } subst k.
    assert (Hd : head_label bj = Some nm). { unfold head_label. destruct (b_immcs bj) as [| z zs]; [discriminate Lp' |]. injection Lp' as ->. reflexivity. }
    rewrite (find_here l 0 [] nm j bj Bj Hd) in Ft.
    + injection Ft as <-. exists j. split; [exact It |]. split; [rewrite Ln; apply nth_error_Some; congruence |]. rewrite (same_start _ _ Mp). lia.
    + intros j' x Xj Hx. unfold head_label in Hx. destruct (b_immcs x) as [| z zs] eqn:Ez; [discriminate Hx |]. destruct z as [| | | t0 v0 z]; try discriminate Hx. injection Hx as ->.
      assert (Px : nth_error fn (start l j' + 0) = Some (IMMC_LABEL t0 v0 nm)). { rewrite <- E, (block_code _ _ x); [now rewrite Ez | exact Xj | rewrite Ez; cbn; lia]. }
      assert (Eq := label_once _ _ _ _ _ _ _ _ ND Px Lp). rewrite Pk in Eq.
      (* blocks with the same start *)
      assert (Mono : forall a b x y, nth_error l a = Some x -> nth_error l b = Some y -> start l a = start l b -> (a < b)%nat -> False).
      { clear -F. intros a b x y Xa Yb Es Lt. assert (St : forall m, (a < m <= b)%nat -> (start l a < start l m)%nat).
        { induction m as [| m IHm]; [lia |]. intros Hm. destruct (nth_error l m) as [z |] eqn:Zm; [| apply nth_error_None in Zm; assert (b < length l)%nat by (apply nth_error_Some; congruence); lia].
          rewrite (start_S _ _ _ Zm). assert (b_immcs z <> []) by (rewrite Forall_forall in F; apply (F z (nth_error_In _ _ Zm))). assert (0 < length (b_immcs z))%nat by (destruct (b_immcs z); [congruence | cbn; lia]).
          destruct (Nat.eq_dec a m) as [-> | N]; [lia |]. assert (start l a < start l m)%nat by (apply IHm; lia). lia. }
        specialize (St b). lia. }
      destruct (Nat.lt_trichotomy j' j) as [Lt | [Q | Lt]]; [exfalso; exact (Mono _ _ _ _ Xj Bj ltac:(lia) Lt) | exact Q | exfalso; exact (Mono _ _ _ _ Bj Xj ltac:(lia) Lt)].
  - intros i b c X Lc G Lt. destruct (A _ _ X) as (b0 & X0 & _ & (Q1 & _ & _ & _ & c' & Lc' & _ & Q6)). rewrite Q1, Lc' in Lc. injection Lc as ->.
    replace (Z.of_nat (S i)) with (0 + Z.of_nat i + 1) by lia. apply Q6; [| exact G]. rewrite <- Ln. lia.
Qed.
