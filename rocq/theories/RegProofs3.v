(** The flow analysis: the sets it ends with, and live ranges that cover every live point *)
From Verif Require Import Base MapModel SetModel ImmcModel ImmcSem RegallocModel ISetProofs ElabProofs LabelSpec RegSpec RegProofs RegProofs2.
Open Scope Z_scope.

(** * One block *)
Lemma src_reg_register o : match src_reg o with Some r => operand_register o = [r] | None => operand_register o = [] end.
Proof. destruct o as [o |]; [destruct o |]; reflexivity. Qed.
Lemma add_src_ok s o s' : iinv s -> add_src s o = Ok s' -> iinv s' /\ forall r, imem s' r <-> In r (operand_register o) \/ imem s r.
Proof.
  unfold add_src. intros I H. assert (X := src_reg_register o). destruct (src_reg o) as [r |]; rewrite X.
  - destruct (iadd_ok _ _ _ I H) as [A B]. split; [exact A |]. intros y. rewrite (B y). cbn. firstorder congruence.
  - injection H as <-. split; [exact I |]. cbn. tauto.
Qed.
Lemma flow_immc_ok s c s' : iinv s -> flow_immc s c = Ok s' -> iinv s' /\
  (forall r, In r (reads c) -> imem s' r) /\ (forall r, imem s r -> writes c <> Some r -> imem s' r) /\ (forall r, imem s' r -> imem s r \/ In r (reads c)).
Proof.
  intros I H. destruct c as [t d f g | | |]; cbn [flow_immc] in H; try (injection H as <-; split; [exact I |]; split; [intros r [] |]; split; auto).
  apply bind_ok in H as (s1 & H1 & H). apply bind_ok in H as (s2 & H2 & H).
  assert (X : iinv s1 /\ (forall r, In r (match d with Some (IMMC_OPERAND_PTR x) => [reg_id x] | _ => [] end) -> imem s1 r) /\ (forall r, imem s r -> writes (IMMC_INST t d f g) <> Some r -> imem s1 r) /\ (forall r, imem s1 r -> imem s r \/ In r (match d with Some (IMMC_OPERAND_PTR x) => [reg_id x] | _ => [] end))).
  { destruct d as [d |]; [| injection H1 as <-; split; [exact I |]; split; [intros r [] |]; split; auto].
    destruct d; try (injection H1 as <-; split; [exact I |]; split; [intros x [] |]; split; auto).
    - destruct (iremove_ok _ _ _ I H1) as (A & B & C). split; [exact A |]. split; [intros x [] |]. split.
      + intros x Hx Hw. apply B; [| exact Hx]. intros ->. apply Hw. reflexivity.
      + intros x Hx. left. destruct (Z.eq_dec x (reg_id r)) as [-> | N]; [auto | now apply B].
    - destruct (iadd_ok _ _ _ I H1) as [A B]. split; [exact A |]. split; [intros x [<- | []]; apply B; now left |]. split; [intros x Hx _; apply B; now right |].
      intros x Hx. apply B in Hx as [-> | Hx]; [right; now left | now left]. }
  destruct X as (I1 & X1 & X2 & X3). destruct (add_src_ok _ _ _ I1 H2) as [I2 Y]. destruct (add_src_ok _ _ _ I2 H) as [I3 Z0]. split; [exact I3 |]. cbn [reads]. split; [| split].
  - intros r Hr. apply Z0. rewrite !in_app_iff in Hr. rewrite (Y r). destruct Hr as [Hr | [Hr | Hr]]; auto.
  - intros r Hr Hw. apply Z0. right. apply Y. right. now apply X2.
  - intros r Hr. rewrite !in_app_iff. apply Z0 in Hr as [Hr | Hr]; [auto |]. apply Y in Hr as [Hr | Hr]; [auto |]. apply X3 in Hr as [Hr | Hr]; auto.
Qed.
Lemma flow_immcs_inv : forall cs s s', iinv s -> flow_immcs cs s = Ok s' -> iinv s'.
Proof. induction cs as [| c cs IH]; intros s s' I H; cbn [flow_immcs] in H; [injection H as <-; exact I |]. apply bind_ok in H as (s1 & H1 & H). eapply flow_immc_ok; [eapply IH; [exact I | exact H1] | exact H]. Qed.
Lemma flow_immcs_total : forall cs s, iinv s -> exists s', flow_immcs cs s = Ok s' /\ iinv s'.
Proof.
  assert (Add : forall s o, iinv s -> exists s', add_src s o = Ok s' /\ iinv s').
  { intros s o I. unfold add_src. destruct (src_reg o) as [r |]; [| eauto]. destruct (iadd_spec s r I) as (u & A & B & _). eauto. }
  induction cs as [| c cs IH]; intros s I; cbn [flow_immcs]; [eauto |]. destruct (IH s I) as (s1 & -> & I1). cbn [bind]. destruct c as [t d f g | | |]; cbn [flow_immc]; eauto.
  assert (D : exists s2, match d with Some (IMMC_OPERAND_REG _ r) => iremove s1 (reg_id r) | Some (IMMC_OPERAND_PTR r) => iadd s1 (reg_id r) | _ => Ok s1 end = Ok s2 /\ iinv s2).
  { destruct d as [d |]; [| eauto]. destruct d; eauto; [destruct (iremove_spec s1 (reg_id r) I1) as (u & A & B & _); eauto | destruct (iadd_spec s1 (reg_id r) I1) as (u & A & B & _); eauto]. }
  destruct D as (s2 & -> & I2). cbn [bind]. destruct (Add s2 f I2) as (s3 & -> & I3). cbn [bind]. exact (Add s3 g I3).
Qed.
Lemma flow_suffix : forall k cs s s', flow_immcs cs s = Ok s' -> exists u, flow_immcs (skipn k cs) s = Ok u.
Proof. induction k as [| k IH]; intros cs s s' H; [eauto |]. destruct cs as [| c cs]; [eauto |]. cbn [flow_immcs] in H. apply bind_ok in H as (s1 & H1 & _). exact (IH _ _ _ H1). Qed.

(** * Rounds *)
Definition good_block (b : block) : Prop := iinv (b_in b) /\ iinv (b_out b).
Definition good_graph (g : list block) : Prop := forall i b, nth_error g i = Some b -> good_block b.
Definition same_block (b b' : block) : Prop := b_immcs b' = b_immcs b /\ b_succ b' = b_succ b /\ (forall x, imem (b_in b') x <-> imem (b_in b) x) /\ (forall x, imem (b_out b') x <-> imem (b_out b) x).
Definition skeleton (g g' : list block) : Prop := length g' = length g /\ forall i b b', nth_error g i = Some b -> nth_error g' i = Some b' -> b_immcs b' = b_immcs b /\ b_succ b' = b_succ b.
Definition same_graph (g g' : list block) : Prop := length g' = length g /\ forall i b b', nth_error g i = Some b -> nth_error g' i = Some b' -> same_block b b'.
Definition settled (g : list block) (b : block) : Prop :=
  flow_immcs (b_immcs b) (b_out b) = Ok (b_in b) /\ forall j bj x, imem (b_succ b) (Z.of_nat j) -> nth_error g j = Some bj -> imem (b_in bj) x -> imem (b_out b) x.
Lemma same_graph_refl g : same_graph g g.
Proof. split; [reflexivity |]. intros i b b' E E'. assert (b = b') by congruence. subst. split; [reflexivity |]. split; [reflexivity |]. split; intros; reflexivity. Qed.
Lemma same_graph_trans a b c : same_graph a b -> same_graph b c -> same_graph a c.
Proof.
  intros [L1 A] [L2 B]. split; [congruence |]. intros i x z X Z0. destruct (nth_error b i) as [y |] eqn:Y; [| apply nth_error_None in Y; assert (i < length a)%nat by (apply nth_error_Some; congruence); lia].
  destruct (A _ _ _ X Y) as (a1 & a2 & a3 & a4), (B _ _ _ Y Z0) as (b1 & b2 & b3 & b4). split; [congruence |]. split; [congruence |]. split; intros u; [rewrite b3; apply a3 | rewrite b4; apply a4].
Qed.
Lemma settled_same g g' b : same_graph g g' -> settled g b -> settled g' b.
Proof.
  intros [L A] [F S]. split; [exact F |]. intros j bj x J E I. destruct (nth_error g j) as [y |] eqn:Y; [| apply nth_error_None in Y; assert (j < length g')%nat by (apply nth_error_Some; congruence); lia].
  eapply S; [exact J | exact Y |]. apply (A _ _ _ Y E). exact I.
Qed.
Lemma succ_input_ok g : good_graph g -> forall js s s', succ_input g js s = Ok s' -> iinv s -> iinv s' /\ (forall x, imem s x -> imem s' x) /\ (forall j bj x, In (Z.of_nat j) js -> nth_error g j = Some bj -> imem (b_in bj) x -> imem s' x) /\ (forall x, imem s' x -> imem s x \/ exists j bj, In (Z.of_nat j) js /\ nth_error g j = Some bj /\ imem (b_in bj) x).
Proof.
  intros G. induction js as [| i js IH]; intros s s' H I; cbn [succ_input] in H.
  - injection H as <-. split; [exact I |]. split; [auto |]. split; [intros j bj x [] | auto].
  - apply bind_ok in H as (b & Hb & H). apply at_Z_ok in Hb as [Ri Hb]. apply bind_ok in H as (s1 & H1 & H). destruct (iunion_ok _ _ _ I (proj1 (G _ _ Hb)) H1) as [I1 U]. destruct (IH _ _ H I1) as (I2 & A & B & C).
    split; [exact I2 |]. split; [intros x X; apply A, U; now left |]. split.
    + intros j bj x [-> | J] E X; [| eapply B; eauto]. rewrite Nat2Z.id in Hb. assert (b = bj) by congruence. subst. apply A, U. now right.
    + intros x X. apply C in X as [X | (j & bj & J & E & X)]; [| right; exists j, bj; split; [now right | auto]]. apply U in X as [X | X]; [now left |]. right. exists (Z.to_nat i), b. rewrite Z2Nat.id by exact Ri. split; [now left | auto].
Qed.
Lemma update_ok g b b' c : good_graph g -> good_block b -> update_register_flow g b = Ok (b', c) ->
  good_block b' /\ b_immcs b' = b_immcs b /\ b_succ b' = b_succ b /\ settled g b' /\ (c = true -> same_block b b').
Proof.
  intros G Gb H. unfold update_register_flow in H. apply bind_ok in H as (o & Ho & H). apply bind_ok in H as (i & Hi & H). apply bind_ok in H as (e1 & E1 & H). apply bind_ok in H as (e2 & E2 & H). injection H as <- <-.
  destruct (succ_input_ok g G _ _ _ Ho inew_inv) as (Io & _ & S & _). assert (Ii := flow_immcs_inv _ _ _ Io Hi). split; [split; assumption |]. split; [reflexivity |]. split; [reflexivity |]. split; [split; [exact Hi | exact S] |].
  intros C. apply Bool.andb_true_iff in C as [C1 C2]. split; [reflexivity |]. split; [reflexivity |]. cbn. split; [exact (proj1 (iequals_ok _ _ _ Ii (proj1 Gb) E1) C1) | exact (proj1 (iequals_ok _ _ _ Io (proj2 Gb) E2) C2)].
Qed.
Lemma skeleton_refl g : skeleton g g.
Proof. split; [reflexivity |]. intros i b b' E E'. assert (b = b') by congruence. subst. auto. Qed.
Lemma skeleton_trans a b c : skeleton a b -> skeleton b c -> skeleton a c.
Proof.
  intros [L1 A] [L2 B]. split; [congruence |]. intros i x z X Z0. destruct (nth_error b i) as [y |] eqn:Y; [| apply nth_error_None in Y; assert (i < length a)%nat by (apply nth_error_Some; congruence); lia].
  destruct (A _ _ _ X Y) as (a1 & a2), (B _ _ _ Y Z0) as (b1 & b2). split; congruence.
Qed.
Lemma flow_round_ok : forall n g cv g' cv', flow_round n g cv = Ok (g', cv') -> good_graph g ->
  good_graph g' /\ skeleton g g' /\ (forall i, (n <= i)%nat -> nth_error g' i = nth_error g i) /\
  (cv' = true -> cv = true /\ same_graph g g' /\ forall i b, (i < n)%nat -> nth_error g' i = Some b -> settled g' b).
Proof.
  induction n as [| n IH]; intros g cv g' cv' H G; cbn [flow_round] in H.
  - injection H as <- <-. split; [exact G |]. split; [apply skeleton_refl |]. split; [auto |]. intros ->. split; [reflexivity |]. split; [apply same_graph_refl |]. intros i b L. lia.
  - apply bind_ok in H as (b & Hb & H). apply deref_ok in Hb. apply bind_ok in H as ((b1, c) & Hu & H). apply bind_ok in H as (g1 & H1 & H). apply deref_ok in H1.
    destruct (update_ok _ _ _ _ G (G _ _ Hb) Hu) as (Gb1 & Im & Su & St & Sm).
    assert (Nn := list_set_nth _ _ _ _ H1). assert (No := fun j => list_set_other _ _ _ _ j H1). assert (Ln := list_set_length _ _ _ _ H1).
    assert (G1 : good_graph g1). { intros i x X. destruct (Nat.eq_dec i n) as [-> | N]; [assert (x = b1) by congruence; subst; exact Gb1 | rewrite (No _ N) in X; eapply G, X]. }
    assert (K1 : skeleton g g1). { split; [exact Ln |]. intros i x y X Y. destruct (Nat.eq_dec i n) as [-> | N]; [assert (x = b) by congruence; assert (y = b1) by congruence; subst; auto | rewrite (No _ N) in Y; assert (x = y) by congruence; subst; auto]. }
    destruct (IH _ _ _ _ H G1) as (G2 & K2 & U2 & C2). split; [exact G2 |]. split; [exact (skeleton_trans _ _ _ K1 K2) |]. split; [intros i L; rewrite (U2 i) by lia; apply No; lia |].
    intros E. destruct (C2 E) as (Ec & S2 & T2). apply Bool.andb_true_iff in Ec as [Ec1 Ec2]. split; [exact Ec1 |]. specialize (Sm Ec2).
    assert (S1 : same_graph g g1). { split; [exact Ln |]. intros i x y X Y. destruct (Nat.eq_dec i n) as [-> | N]; [assert (x = b) by congruence; assert (y = b1) by congruence; subst; exact Sm | rewrite (No _ N) in Y; assert (x = y) by congruence; subst; exact (proj2 (same_graph_refl g) _ _ _ X X)]. }
    assert (S3 := same_graph_trans _ _ _ S1 S2). split; [exact S3 |].
    intros i x L X. destruct (Nat.eq_dec i n) as [-> | N].
    + rewrite (U2 n) in X by lia. assert (x = b1) by congruence. subst x. eapply settled_same; [exact S3 | exact St].
    + exact (T2 i x ltac:(lia) X).
Qed.
Lemma flow_ok : forall fuel g g', analyze_register_flow fuel g = Ok g' -> good_graph g -> good_graph g' /\ skeleton g g' /\ forall i b, nth_error g' i = Some b -> settled g' b.
Proof.
  induction fuel as [| f IH]; intros g g' H G; cbn [analyze_register_flow] in H; [discriminate H |]. apply bind_ok in H as ((g1, cv) & H1 & H). destruct (flow_round_ok _ _ _ _ _ H1 G) as (G1 & K1 & _ & C). destruct cv.
  - injection H as <-. split; [exact G1 |]. split; [exact K1 |]. intros i b E. destruct (C eq_refl) as (_ & _ & T). eapply T; [| exact E]. rewrite <- (proj1 K1). apply nth_error_Some. congruence.
  - destruct (IH _ _ H G1) as (G2 & K2 & S). split; [exact G2 |]. split; [exact (skeleton_trans _ _ _ K1 K2) | exact S].
Qed.

(** * Live registers are in the sets *)
Definition all_jumps_seen (fn : list immc) : Prop := forall c, In c fn -> less_jump c = false.
Lemma seen c n : less_jump c = false -> goes_to c = Some n -> immc_isjumpinst c = true.
Proof. destruct c as [t d f g | | |]; try discriminate. destruct t; try discriminate; reflexivity. Qed.
Lemma jump_last fn g i b k c n : graph fn g -> nth_error g i = Some b -> nth_error (b_immcs b) k = Some c -> less_jump c = false -> goes_to c = Some n -> S k = length (b_immcs b).
Proof.
  intros Gr B E L G. destruct (gr_shape _ _ Gr _ _ B) as [(_ & _ & Sj) _]. assert (J := seen _ _ L G). destruct (Nat.lt_ge_cases (S k) (length (b_immcs b))) as [H | H]; [rewrite (Sj _ _ E H) in J; discriminate J |]. assert (k < length (b_immcs b))%nat by (apply nth_error_Some; congruence). lia.
Qed.
Lemma last_error_nth {A} (l : list A) k x : nth_error l k = Some x -> S k = length l -> last_error l = Some x.
Proof. unfold last_error. intros E L. replace (length l - 1)%nat with k by lia. exact E. Qed.
Lemma skipn_nth {A} : forall k (l : list A) x, nth_error l k = Some x -> skipn k l = x :: skipn (S k) l.
Proof. induction k as [| k IH]; intros l x E; destruct l as [| a l]; try discriminate E; [injection E as ->; reflexivity |]. cbn [nth_error] in E. cbn [skipn]. exact (IH _ _ E). Qed.
Lemma skel_graph fn g g' : skeleton g g' -> graph fn g -> good_graph g' -> graph fn g'.
Proof.
  intros [L K] Gr Gg.
  assert (Back : forall i b', nth_error g' i = Some b' -> exists b, nth_error g i = Some b /\ b_immcs b' = b_immcs b /\ b_succ b' = b_succ b).
  { intros i b' E. destruct (nth_error g i) as [b |] eqn:B; [exists b; split; [reflexivity | exact (K _ _ _ B E)] |]. apply nth_error_None in B. assert (i < length g')%nat by (apply nth_error_Some; congruence). lia. }
  assert (Mp : map b_immcs g' = map b_immcs g). { apply map_immcs_eq; [exact L |]. intros k b' E. destruct (Back _ _ E) as (b & B & X & _). eauto. }
  split.
  - rewrite (same_code _ _ Mp). apply Gr.
  - intros i b' E. destruct (Back _ _ E) as (b & B & X & Y). rewrite X, Y. destruct (gr_shape _ _ Gr _ _ B) as (A1 & A2 & _). split; [exact A1 |]. split; [exact A2 | exact (Gg _ _ E)].
  - intros i b' c nm p E Lc J G La. destruct (Back _ _ E) as (b & B & X & Y). rewrite X in Lc. rewrite Y. destruct (gr_jump _ _ Gr _ _ _ _ _ B Lc J G La) as (j & A1 & A2 & A3). exists j. split; [exact A1 |]. split; [lia |]. now rewrite (same_start _ _ Mp).
  - intros i b' c E Lc G Lt. destruct (Back _ _ E) as (b & B & X & Y). rewrite X in Lc. rewrite Y. eapply (gr_next _ _ Gr); [exact B | exact Lc | exact G | lia].
Qed.
Lemma start_inj fn g i j bi bj k : graph fn g -> nth_error g i = Some bi -> nth_error g j = Some bj -> (k < length (b_immcs bi))%nat -> (start g i + k)%nat = start g j -> i = j /\ k = O.
Proof.
  intros Gr Bi Bj Lk E.
  assert (St : forall a m, (a < m)%nat -> (m <= length g)%nat -> forall x, nth_error g a = Some x -> (start g a + length (b_immcs x) <= start g m)%nat).
  { intros a m. induction m as [| m IH]; [lia |]. intros L1 L2 x X. destruct (Nat.eq_dec a m) as [-> | N]; [rewrite (start_S _ _ _ X); lia |]. destruct (nth_error g m) as [z |] eqn:Zm; [| apply nth_error_None in Zm; lia]. rewrite (start_S _ _ _ Zm). assert (start g a + length (b_immcs x) <= start g m)%nat by (apply IH; [lia | lia | exact X]). lia. }
  assert (Li : (i < length g)%nat) by (apply nth_error_Some; congruence). assert (Lj : (j < length g)%nat) by (apply nth_error_Some; congruence).
  assert (Nj : (0 < length (b_immcs bj))%nat). { destruct (gr_shape _ _ Gr _ _ Bj) as [(N & _) _]. destruct (b_immcs bj); [congruence | cbn; lia]. }
  destruct (Nat.lt_trichotomy i j) as [L | [-> | L]]; [specialize (St i j L ltac:(lia) _ Bi); lia | split; [reflexivity | lia] | specialize (St j i L ltac:(lia) _ Bj); lia].
Qed.
Lemma live_flow fn g : graph fn g -> good_graph g -> (forall i b, nth_error g i = Some b -> settled g b) -> all_jumps_seen fn ->
  forall p r, live fn p r -> forall i b k, nth_error g i = Some b -> (k < length (b_immcs b))%nat -> p = (start g i + k)%nat -> exists u, flow_immcs (skipn k (b_immcs b)) (b_out b) = Ok u /\ imem u r.
Proof.
  intros Gr Gg St Aj p r L. induction L as [p c r E R | p q c r E W F L IH]; intros i b k B Lk ->.
  - destruct (St _ _ B) as [Fl _]. rewrite <- (gr_code _ _ Gr), (block_code _ _ _ _ B Lk) in E. destruct (flow_suffix k _ _ _ Fl) as (u & Hu). exists u. split; [exact Hu |]. rewrite (skipn_nth _ _ _ E) in Hu. cbn [flow_immcs] in Hu. apply bind_ok in Hu as (v & Hv & Hu). exact (proj1 (proj2 (flow_immc_ok _ _ _ (flow_immcs_inv _ _ _ (proj2 (Gg _ _ B)) Hv) Hu)) _ R).
  - destruct (St _ _ B) as [Fl Su]. assert (Inc : In c fn) by (eapply nth_error_In, E). assert (E0 := E). rewrite <- (gr_code _ _ Gr), (block_code _ _ _ _ B Lk) in E. destruct (flow_suffix k _ _ _ Fl) as (u & Hu). exists u. split; [exact Hu |]. rewrite (skipn_nth _ _ _ E) in Hu. cbn [flow_immcs] in Hu. apply bind_ok in Hu as (v & Hv & Hu).
    assert (Iv : iinv v) by (eapply flow_immcs_inv; [exact (proj2 (Gg _ _ B)) | exact Hv]). destruct (flow_immc_ok _ _ _ Iv Hu) as (_ & _ & X & _). apply X; [| exact W]. clear X.
    (* the register is in the set after instruction k *)
    destruct F as (c' & E' & F). assert (c' = c) by congruence. subst c'.
    assert (Fin : forall j bj, imem (b_succ b) (Z.of_nat j) -> nth_error g j = Some bj -> q = start g j -> S k = length (b_immcs b) -> imem v r).
    { intros j bj J Bj Q Lst. assert (Nj : (0 < length (b_immcs bj))%nat). { destruct (gr_shape _ _ Gr _ _ Bj) as [(N & _) _]. destruct (b_immcs bj); [congruence | cbn; lia]. }
      destruct (IH j bj O Bj Nj ltac:(lia)) as (u' & Hu' & M). cbn [skipn] in Hu'. destruct (St _ _ Bj) as [Fj _]. assert (u' = b_in bj) by congruence. subst u'. rewrite skipn_all2 in Hv by lia. cbn in Hv. injection Hv as <-. eapply Su; eauto. }
    destruct F as [[Go ->] | (n & Go & La)].
    + destruct (Nat.eq_dec (S k) (length (b_immcs b))) as [Lst | Nl].
      * (* into the next block *)
        assert (Ei : exists c2, nth_error fn (S (start g i + k)) = Some c2) by (inversion L; subst; eauto). destruct Ei as (c2 & Ei). assert (Sb := start_S _ _ _ B).
        assert (Ei' := Ei). rewrite <- (gr_code _ _ Gr) in Ei'. destruct (find_block _ _ _ Ei') as (j & bj & kj & Bj & Lj & Pj).
        assert (Lt : (S i < length g)%nat).
        { destruct (Nat.lt_ge_cases (S i) (length g)) as [H | H]; [exact H |]. assert (j < length g)%nat by (apply nth_error_Some; congruence).
          assert (Z0 : (start g i + k < start g j + length (b_immcs bj))%nat) by lia.
          assert (j = i \/ (j < i)%nat) as [-> | Hj] by (assert (i < length g)%nat by (apply nth_error_Some; congruence); lia); [assert (bj = b) by congruence; subst; lia |].
          exfalso. assert (St' : forall m, (j < m)%nat -> (m <= i)%nat -> (start g j + length (b_immcs bj) <= start g m)%nat).
          { induction m as [| m IHm]; [lia |]. intros L1 L2. destruct (Nat.eq_dec j m) as [<- | N]; [rewrite (start_S _ _ _ Bj); lia |]. destruct (nth_error g m) as [z |] eqn:Zm; [| apply nth_error_None in Zm; assert (i < length g)%nat by (apply nth_error_Some; congruence); lia]. rewrite (start_S _ _ _ Zm). assert (start g j + length (b_immcs bj) <= start g m)%nat by (apply IHm; lia). lia. }
          specialize (St' i Hj (le_n _)). lia. }
        destruct (nth_error g (S i)) as [b1 |] eqn:B1; [| apply nth_error_None in B1; lia].
        eapply Fin; [eapply (gr_next _ _ Gr); [exact B | eapply last_error_nth; [exact E | exact Lst] | exact Go | exact Lt] | exact B1 | lia | exact Lst].
      * destruct (IH i b (S k) B ltac:(lia) ltac:(lia)) as (u' & Hu' & M). assert (u' = v) by congruence. subst. exact M.
    + assert (Lst := jump_last _ _ _ _ _ _ _ Gr B E (Aj _ Inc) Go). destruct (gr_jump _ _ Gr _ _ _ _ _ B (last_error_nth _ _ _ E Lst) (seen _ _ (Aj _ Inc) Go) Go La) as (j & J & Lj & Sj).
      destruct (nth_error g j) as [bj |] eqn:Bj; [| apply nth_error_None in Bj; lia]. eapply Fin; [exact J | exact Bj | now symmetry | exact Lst].
Qed.
Lemma used_le l r i j : used l r j -> i <= j -> used l r i.
Proof. intros (A & x & X & B) L. split; [exact A |]. exists x. split; [exact X | lia]. Qed.
Lemma flow_used l : forall cs i s u r, marked l cs i -> iinv s -> (forall x, imem s x -> used l x (i + Z.of_nat (length cs))) -> flow_immcs cs s = Ok u -> imem u r -> used l r i.
Proof.
  induction cs as [| c cs IH]; intros i s u r M Is O H I; cbn [flow_immcs] in H.
  - injection H as <-. apply O in I. eapply used_le; [exact I | cbn; lia].
  - apply bind_ok in H as (v & Hv & H). assert (Iv := flow_immcs_inv _ _ _ Is Hv). destruct (flow_immc_ok _ _ _ Iv H) as (_ & _ & _ & X). apply X in I as [I | I].
    + eapply used_le; [eapply (IH (i + 1) s v r); [| exact Is | | exact Hv | exact I] | lia].
      * intros k x E. destruct (M (S k) x E) as [A B]. replace (i + 1 + Z.of_nat k) with (i + Z.of_nat (S k)) by lia. auto.
      * intros x Hx. apply O in Hx. eapply used_le; [exact Hx | cbn [length]; lia].
    + destruct (M 0%nat c eq_refl) as [A _]. specialize (A _ I). eapply used_le; [exact A | lia].
Qed.
Lemma outs_at l : forall g off i b x, outs_marked l g off -> nth_error g i = Some b -> imem (b_out b) x -> used l x (off + Z.of_nat (start g i) + Z.of_nat (length (b_immcs b))).
Proof.
  induction g as [| y g IH]; intros off i b x O E I; destruct i; try discriminate E; cbn [outs_marked] in O; destruct O as [A B].
  - injection E as ->. cbn [start]. apply A in I. eapply used_le; [exact I | lia].
  - cbn [nth_error] in E. eapply used_le; [exact (IH _ _ _ _ B E I) | cbn [start]; lia].
Qed.
Lemma nth_skipn {A} : forall k (l : list A) j, nth_error (skipn k l) j = nth_error l (k + j).
Proof. induction k as [| k IH]; intros l j; [reflexivity |]. destruct l as [| a l]; [destruct j; reflexivity | apply IH]. Qed.
Lemma marked_sub l cs ds i k : marked l cs i -> (forall j c, nth_error ds j = Some c -> nth_error cs (k + j) = Some c) -> marked l ds (i + Z.of_nat k).
Proof. intros M S j c E. specialize (M _ _ (S _ _ E)). replace (i + Z.of_nat k + Z.of_nat j) with (i + Z.of_nat (k + j)) by lia. exact M. Qed.
Lemma live_used fn g l off : graph fn g -> good_graph g -> (forall i b, nth_error g i = Some b -> settled g b) -> all_jumps_seen fn -> marked l (code_of_blocks g) off -> outs_marked l g off ->
  forall p r, live fn p r -> used l r (off + Z.of_nat p).
Proof.
  intros Gr Gg St Aj M O p r L. assert (E : exists c, nth_error fn p = Some c) by (inversion L; eauto). destruct E as (c & E). rewrite <- (gr_code _ _ Gr) in E. destruct (find_block _ _ _ E) as (i & b & k & B & Lk & ->).
  destruct (live_flow _ _ Gr Gg St Aj _ _ L i b k B Lk eq_refl) as (u & Hu & I). eapply (flow_used l _ _ (b_out b) u r); [| exact (proj2 (Gg _ _ B)) | | exact Hu | exact I].
  - apply marked_sub with (cs := code_of_blocks g); [exact M |]. intros j x X. rewrite nth_skipn in X. rewrite <- Nat.add_assoc, (block_code _ _ _ _ B); [exact X |]. apply nth_error_Some. congruence.
  - intros x X. eapply used_le; [eapply outs_at; [exact O | exact B | exact X] |]. rewrite skipn_length. lia.
Qed.
(** the analysis of a function *)
Theorem liveness_sound fn g g' fuel off l :
  ends_in_label fn = false -> NoDup (labels fn) -> all_jumps_seen fn ->
  connect_basic_blocks (create_basic_blocks fn []) = Ok g -> analyze_register_flow fuel g = Ok g' -> analyze_register_liveness [] g' off = Ok l ->
  ranges l (off + Z.of_nat (length fn)) /\ marked l fn off /\ forall p r, live fn p r -> used l r (off + Z.of_nat p).
Proof.
  intros T ND Aj C F A.
  assert (T' : tail_ok fn). { intros pre c ->. unfold ends_in_label in T. assert (X : last_error (pre ++ [c]) = Some c) by (eapply last_error_nth; [rewrite nth_error_app2 by apply le_n; rewrite Nat.sub_diag; reflexivity | rewrite app_length; cbn; lia]). rewrite X in T. destruct c; [reflexivity.. | discriminate T]. }
  assert (Gr := connected _ _ T' ND C). assert (Gg : good_graph g) by (intros i b B; exact (proj2 (proj2 (gr_shape _ _ Gr _ _ B)))).
  destruct (flow_ok _ _ _ F Gg) as (Gg' & K & St). assert (Gr' := skel_graph _ _ _ K Gr Gg'). destruct (analyze_ok _ _ _ _ A (no_ranges off)) as (R & _ & M & O). assert (Code := gr_code _ _ Gr').
  rewrite Code in R, M. split; [exact R |]. split; [exact M |]. apply (live_used fn g' l off Gr' Gg' St Aj); [rewrite Code; exact M | exact O].
Qed.
