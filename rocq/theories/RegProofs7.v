(** When the flow analysis stops, and when every register gets a machine register *)
From Verif Require Import Base MapModel SetModel ImmcModel RegallocModel ISetProofs ElabProofs LabelSpec RegSpec RegProofs RegProofs2 RegProofs3 RegProofs4 RegProofs6.
Open Scope Z_scope.

(** * The flow analysis *)
Definition targets_exist (g : list block) : Prop := forall i b j, nth_error g i = Some b -> imem (b_succ b) j -> 0 <= j < Z.of_nat (length g).
Lemma targets_skeleton g g' : skeleton g g' -> targets_exist g -> targets_exist g'.
Proof.
  intros [L K] T i b j B J. destruct (nth_error g i) as [b0 |] eqn:B0; [| apply nth_error_None in B0; apply nth_len in B; lia]. destruct (K _ _ _ B0 B) as [_ E]. rewrite E in J. rewrite L. exact (T _ _ _ B0 J).
Qed.
Lemma succ_total g : good_graph g -> forall js s, iinv s -> (forall j, In j js -> 0 <= j < Z.of_nat (length g)) -> exists s', succ_input g js s = Ok s' /\ iinv s'.
Proof.
  intros G. induction js as [| j js IH]; intros s I R; cbn [succ_input]; [eauto |]. assert (Rj := R j (or_introl eq_refl)). destruct (nth_error g (Z.to_nat j)) as [b |] eqn:B; [| apply nth_error_None in B; lia].
  unfold at_Z. replace (j <? 0) with false by lia. rewrite B. cbn [deref bind]. destruct (iunion_spec s (b_in b) I (proj1 (G _ _ B))) as (u & -> & Iu & _). cbn [bind]. apply IH; [exact Iu |]. intros k K. apply R. now right.
Qed.
Lemma update_total g b : good_graph g -> good_block b -> (forall j, imem (b_succ b) j -> 0 <= j < Z.of_nat (length g)) -> exists b' c, update_register_flow g b = Ok (b', c).
Proof.
  intros G [I1 I2] R. unfold update_register_flow. destruct (succ_total g G (set_items (b_succ b)) new_set inew_inv R) as (o & -> & Io). cbn [bind]. destruct (flow_immcs_total (b_immcs b) o Io) as (i & -> & Ii). cbn [bind].
  destruct (iequals_spec i (b_in b) Ii I1) as (e1 & -> & _). cbn [bind]. destruct (iequals_spec o (b_out b) Io I2) as (e2 & -> & _). cbn [bind]. eauto.
Qed.
Lemma round_total : forall n g cv, good_graph g -> targets_exist g -> (n <= length g)%nat -> exists g' c, flow_round n g cv = Ok (g', c).
Proof.
  induction n as [| n IH]; intros g cv G T L; cbn [flow_round]; [eauto |]. destruct (nth_error g n) as [b |] eqn:B; [| apply nth_error_None in B; lia]. cbn [deref bind].
  destruct (update_total g b G (G _ _ B) (fun j => T _ _ j B)) as (b1 & c & Hu). rewrite Hu. cbn [bind]. destruct (list_set_total _ _ b1 _ B) as (g1 & H1). rewrite H1. cbn [deref bind].
  destruct (update_ok _ _ _ _ G (G _ _ B) Hu) as (Gb & _ & Su & _). assert (Nn := list_set_nth _ _ _ _ H1). assert (No := fun j => list_set_other _ _ _ _ j H1). assert (Ln := list_set_length _ _ _ _ H1). apply IH; [| | lia].
  - intros i x X. destruct (Nat.eq_dec i n) as [-> | N]; [assert (x = b1) by congruence; subst; exact Gb | rewrite (No _ N) in X; eapply G, X].
  - intros i x j X J. rewrite Ln. destruct (Nat.eq_dec i n) as [-> | N]; [assert (x = b1) by congruence; subst; rewrite Su in J; exact (T _ _ _ B J) | rewrite (No _ N) in X; exact (T _ _ _ X J)].
Qed.

(** what a round computes for each block: from the new blocks after it and the old ones before it *)
Lemma round_blocks : forall n g cv g' cv', flow_round n g cv = Ok (g', cv') -> (n <= length g)%nat -> forall i, (i < n)%nat -> exists b h c b', nth_error g i = Some b /\ nth_error g' i = Some b' /\ length h = length g /\
  (forall j, (i < j)%nat -> nth_error h j = nth_error g' j) /\ (forall j, (j <= i)%nat -> nth_error h j = nth_error g j) /\ update_register_flow h b = Ok (b', c).
Proof.
  induction n as [| n IH]; intros g cv g' cv' H L i Li; [lia |]. cbn [flow_round] in H. apply bind_ok in H as (b & Hb & H). apply deref_ok in Hb. apply bind_ok in H as ((b1, c) & Hu & H). apply bind_ok in H as (g1 & H1 & H). apply deref_ok in H1.
  assert (Nn := list_set_nth _ _ _ _ H1). assert (No := fun j => list_set_other _ _ _ _ j H1). assert (Ln := list_set_length _ _ _ _ H1).
  assert (Up : forall m x cv x' cv', flow_round m x cv = Ok (x', cv') -> forall j, (m <= j)%nat -> nth_error x' j = nth_error x j).
  { clear. induction m as [| m IH]; intros x cv x' cv' H j L; cbn [flow_round] in H; [injection H as <- _; reflexivity |]. apply bind_ok in H as (b & _ & H). apply bind_ok in H as ((b1, c) & _ & H). apply bind_ok in H as (x1 & H1 & H). apply deref_ok in H1. rewrite (IH _ _ _ _ H j) by lia. exact (list_set_other _ _ _ _ j H1 ltac:(lia)). }
  assert (U := Up _ _ _ _ _ H). destruct (Nat.eq_dec i n) as [-> | N].
  - exists b, g, c, b1. split; [exact Hb |]. split; [rewrite (U n) by lia; exact Nn |]. split; [reflexivity |]. split; [intros j J; rewrite (U j) by lia; symmetry; apply No; lia |]. split; [reflexivity | exact Hu].
  - destruct (IH _ _ _ _ H ltac:(lia) i ltac:(lia)) as (b0 & h & c0 & b' & A1 & A2 & A3 & A4 & A5 & A6). exists b0, h, c0, b'. split; [rewrite <- (No i N); exact A1 |]. split; [exact A2 |]. split; [lia |]. split; [exact A4 |]. split; [intros j J; rewrite <- (No j) by lia; exact (A5 j J) | exact A6].
Qed.
Lemma union_items s t t' : set_items t = set_items t' -> iunion s t = iunion s t'.
Proof. intros E. unfold iunion, set_union. now rewrite E. Qed.
Lemma succ_same g h : forall js s, (forall j, In j js -> forall b, nth_error g (Z.to_nat j) = Some b -> exists b', nth_error h (Z.to_nat j) = Some b' /\ set_items (b_in b') = set_items (b_in b)) -> length g = length h -> succ_input g js s = succ_input h js s.
Proof.
  induction js as [| j js IH]; intros s H L; [reflexivity |]. cbn [succ_input]. unfold at_Z. destruct (j <? 0); [reflexivity |]. destruct (nth_error g (Z.to_nat j)) as [b |] eqn:B.
  - destruct (H j (or_introl eq_refl) b B) as (b' & B' & E). rewrite B'. cbn [deref bind]. rewrite (union_items s _ _ E). destruct (iunion s (b_in b)); [cbn [bind] | reflexivity..]. apply IH; [| exact L]. intros k K. apply H. now right.
  - assert (nth_error h (Z.to_nat j) = None) as -> by (apply nth_error_None; apply nth_error_None in B; lia). reflexivity.
Qed.
Lemma list_set_same {A} : forall (l : list A) i x, nth_error l i = Some x -> list_set l i x = Some l.
Proof. induction l as [| a l IH]; intros i x E; destruct i; try discriminate E; cbn; [injection E as ->; reflexivity |]. cbn in E. now rewrite (IH _ _ E). Qed.
Lemma round_stays : forall n g, (n <= length g)%nat -> (forall i b, nth_error g i = Some b -> update_register_flow g b = Ok (b, true)) -> flow_round n g true = Ok (g, true).
Proof.
  induction n as [| n IH]; intros g L H; [reflexivity |]. cbn [flow_round]. destruct (nth_error g n) as [b |] eqn:B; [| apply nth_error_None in B; lia]. cbn [deref bind]. rewrite (H _ _ B). cbn [bind]. rewrite (list_set_same _ _ _ B). cbn [deref bind andb]. apply IH; [lia | exact H].
Qed.
(** nothing goes round a loop: after the first round the blocks that later blocks jump back to need no register *)
Definition empty_heads (g : list block) : Prop := forall i b j bj, nth_error g i = Some b -> imem (b_succ b) (Z.of_nat j) -> (j <= i)%nat -> nth_error g j = Some bj -> set_items (b_in bj) = [].
Lemma settles_in_two g g1 c : good_graph g -> targets_exist g -> (forall i b, nth_error g i = Some b -> set_items (b_in b) = []) -> flow_round (length g) g true = Ok (g1, c) -> empty_heads g1 -> analyze_register_flow 2 g = Ok g1.
Proof.
  intros G T E H Hd. cbn [analyze_register_flow]. rewrite H. cbn [bind]. destruct c; [reflexivity |]. destruct (flow_round_ok _ _ _ _ _ H G) as (G1 & [L1 K1] & _).
  assert (F : flow_round (length g1) g1 true = Ok (g1, true)).
  { apply round_stays; [lia |]. intros i b1 B1. assert (Li := nth_len _ _ _ B1). destruct (round_blocks _ _ _ _ _ H (le_n _) i ltac:(lia)) as (b & h & c & b' & A1 & A2 & A3 & A4 & A5 & A6). assert (b' = b1) by congruence. subst b'.
    destruct (K1 _ _ _ A1 B1) as [Im Su]. unfold update_register_flow in A6 |- *. rewrite Im, Su.
    rewrite (succ_same g1 h) ; [| | lia].
    - apply bind_ok in A6 as (o & -> & A6). cbn [bind]. apply bind_ok in A6 as (ii & -> & A6). cbn [bind]. apply bind_ok in A6 as (e1 & _ & A6). apply bind_ok in A6 as (e2 & _ & A6). assert (Eb : b1 = mkblock (b_immcs b) ii o (b_succ b)) by congruence. destruct (G1 _ _ B1) as [Ia Ib]. rewrite Eb in Ia, Ib. cbn in Ia, Ib. rewrite Eb. cbn [b_in b_out].
      destruct (iequals_spec ii ii Ia Ia) as (x & -> & X). destruct (iequals_spec o o Ib Ib) as (y & Y & Z0). cbn [bind]. rewrite Y. cbn [bind]. rewrite (proj2 X), (proj2 Z0) by reflexivity. reflexivity.
    - intros j J bj Bj. assert (Rj := T _ _ _ A1 J). destruct (Nat.lt_ge_cases i (Z.to_nat j)) as [Lt | Ge].
      + exists bj. rewrite (A4 _ Lt). auto.
      + destruct (nth_error g (Z.to_nat j)) as [b0 |] eqn:B0; [| apply nth_error_None in B0; lia]. exists b0. split; [rewrite (A5 _ Ge); exact B0 |]. rewrite (E _ _ B0). symmetry. eapply (Hd i b1 (Z.to_nat j)); [exact B1 | rewrite Su, Z2Nat.id by lia; exact J | exact Ge | exact Bj]. }
  rewrite F. reflexivity.
Qed.
(** no edge goes back *)
Lemma forward_settles g : good_graph g -> targets_exist g -> (forall i b, nth_error g i = Some b -> set_items (b_in b) = []) -> (forall i b j, nth_error g i = Some b -> imem (b_succ b) j -> Z.of_nat i < j) -> exists g', analyze_register_flow 2 g = Ok g' /\ forall i b, nth_error g' i = Some b -> settled g' b.
Proof.
  intros G T E F. destruct (round_total (length g) g true G T (le_n _)) as (g1 & c & H). assert (A : analyze_register_flow 2 g = Ok g1).
  { eapply settles_in_two; eauto. intros i b j bj B J Le _. destruct (flow_round_ok _ _ _ _ _ H G) as (_ & [L1 K1] & _). destruct (nth_error g i) as [b0 |] eqn:B0; [| apply nth_error_None in B0; apply nth_len in B; lia]. destruct (K1 _ _ _ B0 B) as [_ Su]. rewrite Su in J. assert (X := F _ _ _ B0 J). lia. }
  exists g1. split; [exact A |]. exact (proj2 (proj2 (flow_ok _ _ _ A G))).
Qed.

(** * Register pressure *)
(** fewer than [n] of the registers before [v] are still needed when [v] is first written *)
Definition low_pressure (lvs : list liveness) (n : nat) : Prop :=
  forall v x l, nth_error lvs v = Some x -> NoDup l -> (forall s, In s l -> (s < v)%nat /\ exists y, nth_error lvs s = Some y /\ first_def x < last_use y) -> (length l < n)%nat.
Lemma free_total lvs f : forall ss, (forall s, In s ss -> s <> -1 -> 0 <= s < Z.of_nat (length lvs)) -> exists ss', free_unused lvs f ss = Ok ss' /\ forall s, In s ss' -> s <> -1 -> In s ss /\ exists y, range lvs s y /\ f < last_use y.
Proof.
  induction ss as [| s ss IH]; intros H; cbn [free_unused]; [exists []; split; [reflexivity | intros s []] |]. destruct (IH (fun x X => H x (or_intror X))) as (r & Hr & A). unfold free_status. destruct (s =? -1) eqn:E.
  - cbn [bind]. rewrite Hr. cbn [bind]. eexists. split; [reflexivity |]. intros x [<- | X] N; [lia |]. destruct (A _ X N) as [A1 A2]. split; [now right | exact A2].
  - assert (R := H s (or_introl eq_refl) ltac:(lia)). destruct (nth_error lvs (Z.to_nat s)) as [y |] eqn:Y; [| apply nth_error_None in Y; lia]. unfold at_Z. replace (s <? 0) with false by lia. rewrite Y. cbn [deref bind]. rewrite Hr. cbn [bind]. eexists. split; [reflexivity |].
    intros x [<- | X] N; [| destruct (A _ X N) as [A1 A2]; split; [now right | exact A2]]. destruct (last_use y <=? f) eqn:L; [congruence |]. split; [now left |]. exists y. split; [exact Y | lia].
Qed.
Lemma held_nodup lvs n v ss allocs : given lvs n v ss allocs -> forall i j s, nth_error ss i = Some s -> nth_error ss j = Some s -> s <> -1 -> i = j.
Proof. intros G i j s I J N. destruct (gv_held _ _ _ _ _ G _ _ I N) as (_ & _ & A). destruct (gv_held _ _ _ _ _ G _ _ J N) as (_ & _ & B). rewrite A in B. injection B as B. lia. Qed.
Lemma low_one lvs n v ss allocs x cur : ranges lvs cur -> low_pressure lvs n -> given lvs n v ss allocs -> nth_error lvs v = Some x -> (forall s k, (s < v)%nat -> nth_error allocs s = Some k -> 0 <= k) ->
  exists ss' allocs', allocate_one lvs (Z.of_nat v) ss allocs = Ok (ss', allocs') /\ (forall s k, (s < S v)%nat -> nth_error allocs' s = Some k -> 0 <= k).
Proof.
  intros R Lp G X A. assert (Lv := nth_len _ _ _ X). unfold allocate_one. unfold at_Z at 1. replace (Z.of_nat v <? 0) with false by lia. rewrite Nat2Z.id, X. cbn [deref bind].
  destruct (free_total lvs (first_def x) ss) as (ss1 & Hf & B). { intros s I N. apply In_nth_error in I as (k & K). destruct (gv_held _ _ _ _ _ G _ _ K N) as (P1 & P2 & _). lia. }
  rewrite Hf. cbn [bind]. assert (G1 := given_free _ _ _ _ _ _ _ _ _ R X eq_refl G Hf). destruct (first_free ss1 0) as [r |] eqn:Ff.
  - do 2 eexists. split; [reflexivity |]. intros s k Ls K. rewrite set_Z_nth in K by (rewrite ?(gv_allocs _ _ _ _ _ G); lia). rewrite Nat2Z.id in K. destruct (Nat.eqb_spec s v) as [-> | N]; [injection K as <-; apply first_free_ok in Ff; lia | eapply A; [| exact K]; lia].
  - exfalso. assert (Nf := first_free_none _ _ Ff). assert (Q : (length (map Z.to_nat ss1) < n)%nat).
    { apply (Lp v x _ X).
      - apply NoDup_nth_error. intros i j Li E. rewrite map_length in Li. rewrite !nth_error_map in E. destruct (nth_error ss1 i) as [a |] eqn:Ei; [| apply nth_error_None in Ei; lia]. destruct (nth_error ss1 j) as [b |] eqn:Ej; [| discriminate E]. cbn in E. injection E as E.
        assert (Na := Nf _ _ Ei). assert (Nb := Nf _ _ Ej). destruct (gv_held _ _ _ _ _ G1 _ _ Ei Na) as (P1 & _). destruct (gv_held _ _ _ _ _ G1 _ _ Ej Nb) as (P2 & _). assert (a = b) by lia. subst b. exact (held_nodup _ _ _ _ _ G1 _ _ _ Ei Ej Na).
      - intros s I. apply in_map_iff in I as (a & <- & I). apply In_nth_error in I as (k & K). assert (Na := Nf _ _ K). destruct (gv_held _ _ _ _ _ G1 _ _ K Na) as (P1 & P2 & _). split; [exact P2 |]. destruct (B a (nth_error_In _ _ K) Na) as [_ (y & Y & L)]. exists y. auto. }
    rewrite map_length, (gv_ss _ _ _ _ _ G1) in Q. lia.
Qed.
Lemma low_loop lvs n cur : ranges lvs cur -> low_pressure lvs n -> forall m v ss allocs, (v + m = length lvs)%nat -> given lvs n v ss allocs -> (forall s k, (s < v)%nat -> nth_error allocs s = Some k -> 0 <= k) ->
  exists allocs', allocate_loop m lvs (Z.of_nat v) ss allocs = Ok allocs' /\ (forall s k, (s < v + m)%nat -> nth_error allocs' s = Some k -> 0 <= k).
Proof.
  intros R Lp. induction m as [| m IH]; intros v ss allocs E G A; cbn [allocate_loop].
  - rewrite Nat.add_0_r. eauto.
  - destruct (nth_error lvs v) as [x |] eqn:X; [| apply nth_error_None in X; lia]. destruct (low_one _ _ _ _ _ _ _ R Lp G X A) as (ss' & al' & H & A'). rewrite H. cbn [bind]. replace (Z.of_nat v + 1) with (Z.of_nat (S v)) by lia. replace (v + S m)%nat with (S v + m)%nat by lia. apply IH; [lia | exact (allocate_one_ok _ _ _ _ _ _ _ _ R G H) | exact A'].
Qed.
Lemma low_allocates lvs n cur : ranges lvs cur -> low_pressure lvs n -> exists allocs, determine_allocation lvs n = Ok allocs /\ length allocs = length lvs /\ forall s k, nth_error allocs s = Some k -> 0 <= k < Z.of_nat n.
Proof.
  intros R Lp. destruct (low_loop lvs n cur R Lp (length lvs) 0 (repeat (-1) n) (repeat (-1) (length lvs)) eq_refl) as (al & H & A).
  - split; [apply repeat_length | apply repeat_length | | intros s k L; lia | intros s k x t y L; lia | intros s t k x y _ L; lia]. intros k s N1 N2. assert (s = -1) by (eapply repeat_spec, nth_error_In, N1). congruence.
  - intros s k L. lia.
  - exists al. assert (H' : determine_allocation lvs n = Ok al) by exact H. destruct (allocation_ok _ _ _ _ R H') as (L & B & _). split; [exact H' |]. split; [exact L |]. intros s k K. assert (X := B _ _ K). split; [eapply A; [| exact K]; rewrite <- L; apply nth_len in K; lia | lia].
Qed.
(** every register of an allocated function is a machine register *)
Lemma alloc_reg_real allocs n r r' : (forall s k, nth_error allocs s = Some k -> 0 <= k < n) -> alloc_reg allocs r = Ok r' -> 0 <= reg_id r' < n.
Proof. intros A H. unfold alloc_reg in H. apply bind_ok in H as (k & K & H). apply at_Z_ok in K as [_ K]. injection H as <-. exact (A _ _ K). Qed.
Lemma alloc_ope_real allocs n o o' r : (forall s k, nth_error allocs s = Some k -> 0 <= k < n) -> alloc_ope allocs o = Ok o' -> In r (operand_register o') -> 0 <= r < n.
Proof.
  intros A H I. destruct o as [o |]; [| injection H as <-; destruct I]. destruct o; cbn [alloc_ope] in H; try (injection H as <-; destruct I); apply bind_ok in H as (r1 & R1 & H); injection H as <-; destruct I as [<- | []]; exact (alloc_reg_real _ _ _ _ A R1).
Qed.
Lemma allocated_real allocs n : (forall s k, nth_error allocs s = Some k -> 0 <= k < n) -> forall l l', gen_allocated_immcs allocs l = Ok l' -> forall c r, In c l' -> In r (reads c) \/ writes c = Some r -> 0 <= r < n.
Proof.
  intros A. induction l as [| c l IH]; intros l' H c' r I Hr; cbn [gen_allocated_immcs] in H; [injection H as <-; destruct I |]. apply bind_ok in H as (c1 & H1 & H). apply bind_ok in H as (l1 & H2 & H). injection H as <-. destruct I as [<- | I]; [| exact (IH _ H2 _ _ I Hr)].
  destruct c as [t d f g | | |]; cbn [alloc_immc] in H1; try (injection H1 as <-; destruct Hr as [[] | Hr]; discriminate Hr). apply bind_ok in H1 as (f1 & F1 & H1). apply bind_ok in H1 as (g1 & G1 & H1). apply bind_ok in H1 as (d1 & D1 & H1). injection H1 as <-.
  assert (Dr : In r (operand_register d1) -> 0 <= r < n) by (apply (alloc_ope_real _ _ _ _ _ A D1)). destruct Hr as [Hr | Hr]; cbn [reads writes] in Hr.
  - rewrite !in_app_iff in Hr. destruct Hr as [Hr | [Hr | Hr]]; [exact (alloc_ope_real _ _ _ _ _ A F1 Hr) | exact (alloc_ope_real _ _ _ _ _ A G1 Hr) |]. apply Dr. destruct d1 as [o |]; [| exact Hr]. destruct o; try exact Hr; destruct Hr.
  - apply Dr. destruct d1 as [o |]; [| discriminate Hr]. destruct o; try discriminate Hr. injection Hr as <-. now left.
Qed.
Lemma liveseqs_total n : forall lvs seqs allocs, length seqs = n -> length allocs = length lvs -> (forall s k, nth_error allocs s = Some k -> 0 <= k < Z.of_nat n) -> exists seqs', update_liveseqs seqs lvs allocs = Ok seqs'.
Proof.
  induction lvs as [| l lvs IH]; intros seqs allocs Ls La A; cbn [update_liveseqs]; [eauto |]. destruct allocs as [| a allocs]; [discriminate La |]. assert (Ra := A 0%nat a eq_refl). unfold at_Z. replace (a <? 0) with false by lia. destruct (nth_error seqs (Z.to_nat a)) as [s |] eqn:E; [| apply nth_error_None in E; lia]. cbn [deref bind].
  apply IH; [now rewrite set_Z_length | cbn in La; lia |]. intros i k K. exact (A (S i) k K).
Qed.
Theorem function_registers n fn off seqs cs seqs' : allocate_function n fn off seqs = Ok (cs, seqs') -> forall c r, In c cs -> In r (reads c) \/ writes c = Some r -> 0 <= r < Z.of_nat n.
Proof.
  intros H. unfold allocate_function in H. apply bind_ok in H as (g & C & H). apply bind_ok in H as (g' & F & H). apply bind_ok in H as (l & A & H). apply bind_ok in H as (al & D & H). apply bind_ok in H as (cs' & Gn & H). apply bind_ok in H as (sq & U & H). injection H as <- <-.
  destruct (analyze_ok _ _ _ _ A (no_ranges off)) as (R & _). destruct (allocation_ok _ _ _ _ R D) as (L & B & _). destruct (liveseqs_ok _ _ _ _ U) as [_ P]. refine (allocated_real al (Z.of_nat n) _ _ _ Gn). intros s k K. split; [eapply P; [| exact K]; rewrite <- L; eapply nth_len, K | apply (B _ _ K)].
Qed.
(** a function of low pressure is allocated *)
Lemma alloc_ope_total al o : (forall r, In r (operand_register o) -> 0 <= r < Z.of_nat (length al)) -> exists o', alloc_ope al o = Ok o'.
Proof.
  intros H. destruct o as [o |]; [| exists None; reflexivity].
  assert (X : forall r, 0 <= reg_id r < Z.of_nat (length al) -> exists r', alloc_reg al r = Ok r'). { intros r R. unfold alloc_reg, at_Z. replace (reg_id r <? 0) with false by lia. destruct (nth_error al (Z.to_nat (reg_id r))) eqn:E; [cbn; eauto | apply nth_error_None in E; lia]. }
  destruct o; cbn [alloc_ope]; eauto; destruct (X r (H _ (or_introl eq_refl))) as (r' & ->); cbn [bind]; eauto.
Qed.
Lemma gen_allocated_total al : forall l, (forall c r, In c l -> In r (reads c) \/ writes c = Some r -> 0 <= r < Z.of_nat (length al)) -> exists l', gen_allocated_immcs al l = Ok l'.
Proof.
  induction l as [| c l IH]; intros H; cbn [gen_allocated_immcs]; [eauto |]. destruct IH as (l' & E); [intros c0 r I; apply H; now right |]. assert (X := fun r => H c r (or_introl eq_refl)). clear H.
  assert (exists c', alloc_immc al c = Ok c') as (c' & ->); [| cbn [bind]; rewrite E; cbn [bind]; eauto].
  destruct c as [t d f g | | |]; cbn [alloc_immc]; eauto. cbn [reads writes] in X.
  destruct (alloc_ope_total al f) as (f' & ->); [intros r R; apply X; left; rewrite !in_app_iff; auto |]. cbn [bind].
  destruct (alloc_ope_total al g) as (g' & ->); [intros r R; apply X; left; rewrite !in_app_iff; auto |]. cbn [bind].
  destruct (alloc_ope_total al d) as (d' & ->); [| cbn [bind]; eauto]. intros r R. apply X. destruct d as [o |]; [| destruct R]. destruct o; try destruct R as [<- | []]; try destruct R; [now right | left; rewrite !in_app_iff; right; right; now left].
Qed.
Theorem function_allocates n fn off seqs g g' l : NoDup (LabelSpec.labels fn) -> ends_in_label fn = false -> (forall c r, In c fn -> writes c = Some r -> 0 <= r) -> length seqs = n ->
  connect_basic_blocks (create_basic_blocks fn []) = Ok g -> analyze_register_flow (flow_fuel fn g) g = Ok g' -> analyze_register_liveness [] g' off = Ok l -> low_pressure l n ->
  exists cs seqs', allocate_function n fn off seqs = Ok (cs, seqs').
Proof.
  intros ND T W Ls C F A Lp. unfold allocate_function. rewrite C. cbn [bind]. rewrite F. cbn [bind]. rewrite A. cbn [bind].
  assert (T' : tail_ok fn). { intros pre c ->. unfold ends_in_label in T. assert (X : last_error (pre ++ [c]) = Some c) by (eapply last_error_nth; [rewrite nth_error_app2 by apply le_n; rewrite Nat.sub_diag; reflexivity | rewrite app_length; cbn; lia]). rewrite X in T. destruct c; [reflexivity.. | discriminate T]. }
  assert (Gr := connected _ _ T' ND C). assert (Gg : good_graph g) by (intros i b B; exact (proj2 (proj2 (gr_shape _ _ Gr _ _ B)))).
  destruct (flow_ok _ _ _ F Gg) as (Gg' & K & _). assert (Gr' := skel_graph _ _ _ K Gr Gg'). destruct (analyze_ok _ _ _ _ A (no_ranges off)) as (R & _ & M & _). rewrite (gr_code _ _ Gr') in R, M.
  destruct (low_allocates _ _ _ R Lp) as (al & -> & La & B). cbn [bind].
  destruct (gen_allocated_total al fn) as (cs & ->).
  - intros c r I [Hr | Hr]; apply In_nth_error in I as (k & Ek); destruct (M _ _ Ek) as [U D].
    + destruct (U _ Hr) as (P & x & X & _). apply nth_len in X. lia.
    + assert (P := W _ _ (nth_error_In _ _ Ek) Hr). destruct (D _ Hr P) as (x & X & _). apply nth_len in X. lia.
  - cbn [bind]. destruct (liveseqs_total n l seqs al Ls La B) as (sq & ->). cbn [bind]. eauto.
Qed.

(** * Ranges and clashes *)
Theorem liveness_contains fn g g' fuel off l p r : NoDup (labels fn) -> ends_in_label fn = false -> ((forall c, In c fn -> less_jump c = false) \/ fresh_loops fn) ->
  connect_basic_blocks (create_basic_blocks fn []) = Ok g -> analyze_register_flow fuel g = Ok g' -> analyze_register_liveness [] g' off = Ok l ->
  live fn p r -> (exists q c, (q < p)%nat /\ nth_error fn q = Some c /\ writes c = Some r) -> exists x, range l r x /\ first_def x < off + Z.of_nat p <= last_use x.
Proof.
  intros N T Lp C F A L (q & c & Q & E & W). destruct (connect_code _ _ (tail_of _ T) C) as [Ec Gg]. destruct (flow_ok _ _ _ F Gg) as (_ & K & _). apply skeleton_code in K. destruct (analyze_ok _ _ _ _ A (no_ranges off)) as (R & _ & M & _). rewrite K, Ec in R, M.
  assert (U : used l r (off + Z.of_nat p)) by (destruct Lp as [Nl | Fl]; [exact (proj2 (proj2 (liveness_sound _ _ _ _ _ _ T N Nl C F A)) _ _ L) | exact (fresh_used _ _ _ Fl M _ _ L)]).
  destruct U as (R0 & x & X & Xu). destruct (proj2 (M _ _ E) _ W R0) as (y & Y & Yd). assert (y = x) by congruence. subst y. exists x. split; [exact X | lia].
Qed.
Theorem never_share fn g g' fuel off l n allocs p r s k : orderly fn -> NoDup (labels fn) ->
  connect_basic_blocks (create_basic_blocks fn []) = Ok g -> analyze_register_flow fuel g = Ok g' -> analyze_register_liveness [] g' off = Ok l -> determine_allocation l n = Ok allocs ->
  live fn p r -> live fn p s -> r <> s -> 0 <= k -> nth_error allocs (Z.to_nat r) = Some k -> nth_error allocs (Z.to_nat s) <> Some k.
Proof.
  intros O N C F A D Lr Ls Ne K0 Kr Ks. assert (T := stops_tail _ O). destruct (function_covers _ _ _ _ _ _ O N C F A) as (Us & _ & R & _). destruct (allocation_ok _ _ _ _ R D) as (_ & _ & Ap).
  assert (X : forall t, live fn p t -> 0 <= t /\ exists x, range l t x /\ first_def x < off + Z.of_nat p <= last_use x). { intros t Lt. split; [exact (proj1 (Us _ _ Lt)) |]. exact (liveness_contains _ _ _ _ _ _ _ _ N T (or_loops _ O) C F A Lt (or_written _ O _ _ Lt)). }
  destruct (X _ Lr) as (R0 & x & Xr & Xb), (X _ Ls) as (S0 & y & Ys & Yb). destruct (Z.lt_trichotomy r s) as [Lt | [Q | Lt]]; [| congruence |].
  - specialize (Ap (Z.to_nat r) (Z.to_nat s) k x y ltac:(lia) Kr Ks K0 Xr Ys). lia.
  - specialize (Ap (Z.to_nat s) (Z.to_nat r) k y x ltac:(lia) Ks Kr K0 Ys Xr). lia.
Qed.
Lemma few_registers lvs n : (length lvs <= n)%nat -> low_pressure lvs n.
Proof.
  intros L v x l X N H. apply nth_len in X. assert (incl l (seq 0 v)) by (intros s I; destruct (H _ I) as [Ls _]; apply in_seq; lia). apply NoDup_incl_length in H0; [| exact N]. rewrite seq_length in H0. lia.
Qed.
