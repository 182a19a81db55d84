(** Proofs for C44: registers that are live in a compiled function are marked when its instructions are generated *)
From Verif Require Import Base AstModel SrtModel ResolverModel ImmcModel ImmcgenModel ImmcSem LabelSpec LabelProofs LabelProofs3 RegallocModel X64Model X64genModel ElabProofs RegSpec RegProofs RegProofs2 RegProofs4 RegProofs6 OpSpec OrderSpec OrderProofs PaceProofs OrderProofs8 OrderProofs9 MarkSpec MarkProofs MarkProofs2 MarkProofs3.
Local Open Scope Z_scope.

Definition seqs_ok (seqs : list liveseq) (off : Z) : Prop := forall k s, nth_error seqs k = Some s -> tidy (ls_lvs s) /\ bounded (ls_lvs s) off /\ ls_index s = 0 /\ ls_pos s = -1.
Definition more (seqs seqs' : list liveseq) : Prop := length seqs' = length seqs /\ forall k s, nth_error seqs k = Some s -> exists s', nth_error seqs' k = Some s' /\ incl (ls_lvs s) (ls_lvs s').
Lemma more_refl s : more s s.
Proof. split; [reflexivity |]. intros k q E. exists q. split; [exact E | apply incl_refl]. Qed.
Lemma more_trans a b c : more a b -> more b c -> more a c.
Proof. intros [L1 H1] [L2 H2]. split; [congruence |]. intros k s E. destruct (H1 _ _ E) as (s1 & E1 & I1). destruct (H2 _ _ E1) as (s2 & E2 & I2). exists s2. split; [exact E2 | exact (incl_tran I1 I2)]. Qed.
Lemma seqs_later seqs off off' : seqs_ok seqs off -> off <= off' -> seqs_ok seqs off'.
Proof. intros H L k s E. destruct (H _ _ E) as (T & B & I). split; [exact T |]. split; [| exact I]. intros x X. specialize (B x X). lia. Qed.
(** what the allocator found out about the function [fn] at [off] *)
Definition analysed (n : nat) (fn : list immc) (off : Z) (fn' : list immc) (seqs : list liveseq) : Prop :=
  exists l allocs, covers fn l off /\ determine_allocation l n = Ok allocs /\ gen_allocated_immcs allocs fn = Ok fn'
    /\ forall v x k, nth_error l v = Some x -> nth_error allocs v = Some k -> 0 <= k /\ exists s, nth_error seqs (Z.to_nat k) = Some s /\ In x (ls_lvs s).
Lemma analysed_more n fn off fn' seqs seqs' : analysed n fn off fn' seqs -> more seqs seqs' -> analysed n fn off fn' seqs'.
Proof.
  intros (l & al & C & D & G & H) [_ M]. exists l, al. split; [exact C |]. split; [exact D |]. split; [exact G |]. intros v x k X K. destruct (H _ _ _ X K) as (K0 & s & E & I). split; [exact K0 |].
  destruct (M _ _ E) as (s' & E' & I'). exists s'. split; [exact E' | exact (I' _ I)].
Qed.
Lemma function_marks n fn off seqs fn' seqs' : allocate_function n fn off seqs = Ok (fn', seqs') -> 0 <= off -> regular_code fn -> NoDup (labels fn) -> (exists t v m body, fn = IMMC_LABEL t v m :: body) -> seqs_ok seqs off ->
  seqs_ok seqs' (off + Z.of_nat (length fn)) /\ more seqs seqs' /\ analysed n fn off fn' seqs'.
Proof.
  intros H Off [Or [Pc _]] ND Hd S. unfold allocate_function in H. apply bind_ok in H as (g & Hg & H). apply bind_ok in H as (g' & Hg' & H). apply bind_ok in H as (l & Hl & H). apply bind_ok in H as (al & Ha & H). apply bind_ok in H as (cs & Hc & H). apply bind_ok in H as (sq & Hu & H). injection H as <- <-.
  pose proof (function_covers _ _ _ _ _ _ Or ND Hg Hg' Hl) as Cov. destruct (update_ok _ _ _ _ Hu) as (L & Bd & K).
  assert (At : forall k s', nth_error sq k = Some s' -> exists s, nth_error seqs k = Some s) by (intros k s' E; apply nth_lt in E; destruct (nth_error seqs k) eqn:Q; [eauto | apply nth_error_None in Q; lia]).
  split; [| split].
  - intros k s' E. destruct (At _ _ E) as (s & Es). rewrite (K _ _ Es) in E. injection E as <-. cbn [ls_lvs ls_index ls_pos]. destruct (S _ _ Es) as (T & B & I).
    destruct (extend_tidy fn l off n al Off Cov Pc Ha Hd (ls_lvs s) k T B) as [T' B']. auto.
  - split; [exact L |]. intros k s E. eexists. split; [exact (K _ _ E) |]. cbn. apply incl_appl, incl_refl.
  - exists l, al. split; [exact Cov |]. split; [exact Ha |]. split; [exact Hc |]. intros v x k X Q. specialize (Bd _ _ _ X Q). split; [lia |]. destruct (nth_error seqs (Z.to_nat k)) as [s |] eqn:Es; [| apply nth_error_None in Es; lia].
    eexists. split; [exact (K _ _ Es) |]. cbn. apply in_app_iff. right. eapply given_in; [exact X |]. rewrite Z2Nat.id by lia. exact Q.
Qed.
Lemma loop_marks n : forall f l off seqs l' seqs', allocate_loop_ext f n l off seqs = Ok (l', seqs') -> 0 <= off -> (forall fn, function_in l fn -> regular_code fn) -> NoDup (labels l) -> seqs_ok seqs off ->
  seqs_ok seqs' (off + Z.of_nat (length l)) /\ more seqs seqs' /\
  forall A fn B, l = A ++ fn ++ B -> is_function fn B -> exists A' fn' B', l' = A' ++ fn' ++ B' /\ length A' = length A /\ analysed n fn (off + Z.of_nat (length A)) fn' seqs'.
Proof.
  induction f as [| f IH]; intros l off seqs l' seqs' H Off Reg ND S.
  - destruct l as [| c l]; [| discriminate H]. injection H as <- <-. split; [cbn; now rewrite Z.add_0_r |]. split; [apply more_refl |]. intros A fn B E ((v & m & body & -> & _) & _). destruct A; discriminate E.
  - destruct l as [| c l]; cbn [allocate_loop_ext] in H; [injection H as <- <-; split; [cbn; now rewrite Z.add_0_r |]; split; [apply more_refl |]; intros A fn B E ((v & m & body & -> & _) & _); destruct A; discriminate E |].
    destruct (span_external l) as [a rest] eqn:Sp. destruct (span_ok _ _ _ Sp) as (El & Fa & Hr). destruct c as [| | | t v m]; try discriminate H. apply bind_ok in H as ((cs, s1) & Hc & H). apply bind_ok in H as ((cs', s2) & Hl & H). injection H as <- <-.
    set (ext := IMMC_LABEL t v m :: a) in *. subst l. change (IMMC_LABEL t v m :: a ++ rest) with (ext ++ rest) in *. rewrite labels_app in ND.
    assert (ND1 : NoDup (labels ext)) by (eapply nodup_app_l, ND). assert (ND2 : NoDup (labels rest)) by (eapply nodup_app_r, ND).
    assert (Step : seqs_ok s1 (off + Z.of_nat (length ext)) /\ more seqs s1 /\ (t = IMMC_LABEL_FUNCTION -> analysed n ext off cs s1)).
    { assert (K : t = IMMC_LABEL_FUNCTION \/ t <> IMMC_LABEL_FUNCTION) by (destruct t; ((left; reflexivity) || (right; discriminate))). destruct K as [K | K].
      - rewrite K in Hc. assert (RE : regular_code ext) by (apply Reg; exists [], rest; split; [reflexivity |]; split; [exists v, m, a; split; [unfold ext; now rewrite K | exact Fa] | exact Hr]).
        destruct (function_marks _ _ _ _ _ _ Hc Off RE ND1 ltac:(unfold ext; eauto) S) as (S1 & M1 & A1). auto.
      - assert (Hc' : Ok (ext, seqs) = Ok (cs, s1)) by (destruct t; solve [exact Hc | congruence]). injection Hc' as <- <-. split; [eapply seqs_later; [exact S | lia] |]. split; [apply more_refl | congruence]. }
    destruct Step as (S1 & M1 & An).
    assert (Reg2 : forall fn, function_in rest fn -> regular_code fn). { intros fn (A & B & E & Sh). apply Reg. exists (ext ++ A), B. split; [rewrite E, <- app_assoc; reflexivity | exact Sh]. }
    destruct (IH _ _ _ _ _ Hl ltac:(lia) Reg2 ND2 S1) as (S2 & M2 & Pc). split; [rewrite app_length; replace (off + Z.of_nat (length ext + length rest)) with (off + Z.of_nat (length ext) + Z.of_nat (length rest)) by lia; exact S2 |].
    split; [exact (more_trans _ _ _ M1 M2) |]. assert (Lc : length cs = length ext).
    { assert (F1 : Forall2 same_label ext cs) by (unfold ext in Hc |- *; destruct t; [eapply function_labels, Hc | injection Hc as <- _; apply Forall2_refl, same_label_refl..]). exact (Forall2_len _ _ _ F1). }
    intros A fn B E Sh. assert (Sh' := Sh). destruct Sh as ((v0 & m0 & body & Ef & Fb) & Hb). subst fn. destruct A as [| x A].
    + cbn [app] in E. unfold ext in E. cbn [app] in E. injection E as Et Ev Em E. destruct (span_unique _ _ _ _ E Fa Fb Hr Hb) as [Ea Eb]. exists [], cs, cs'. split; [reflexivity |]. split; [reflexivity |]. cbn [length]. rewrite Z.add_0_r.
      rewrite <- Et, <- Ev, <- Em, <- Ea. eapply analysed_more; [exact (An Et) | exact M2].
    + unfold ext in E. cbn [app] in E. injection E as Ex E. symmetry in E. destruct (after_span _ _ _ _ _ E Fa) as (A2 & EA & E2); [reflexivity |]. rewrite app_comm_cons in E2.
      destruct (Pc A2 _ B E2 Sh') as (A' & fn' & B' & -> & L & An'). exists (cs ++ A'), fn', B'. split; [now rewrite <- app_assoc |]. split; [rewrite app_length, Lc, L, EA; unfold ext; cbn; rewrite app_length; lia |].
      replace (off + Z.of_nat (length (x :: A))) with (off + Z.of_nat (length ext) + Z.of_nat (length A2)) by (rewrite EA; unfold ext; cbn [length]; rewrite app_length; lia). exact An'.
Qed.
Lemma new_seqs n : seqs_ok (repeat new_liveseq n) 0.
Proof.
  intros k s E. apply nth_error_In, repeat_spec in E. subst s. cbn. split; [| split; [intros x [] | auto]]. split; intros j; intros; destruct j; discriminate.
Qed.
Definition place_of (allocs : list Z) (r : Z) : Z := nth (Z.to_nat r) allocs (-1).
Lemma alloc_renamed allocs c c' : alloc_immc allocs c = Ok c' -> c' = renamed (place_of allocs) c.
Proof.
  assert (O : forall o o', alloc_ope allocs o = Ok o' -> o' = renamed_operand (place_of allocs) o).
  { assert (R : forall r r', alloc_reg allocs r = Ok r' -> r' = mkireg (place_of allocs (reg_id r)) (reg_unsigned r)).
    { intros r r' H. unfold alloc_reg in H. apply bind_ok in H as (i & Hi & H). injection H as <-. apply at_Z_ok in Hi as [_ Hi]. unfold place_of. rewrite (nth_error_nth _ _ _ Hi). reflexivity. }
    intros [o |] o' H; [| injection H as <-; reflexivity]. destruct o; cbn in H; try (injection H as <-; reflexivity); apply bind_ok in H as (r' & Hr & H); injection H as <-; apply R in Hr; subst r'; reflexivity. }
  destruct c as [t d f g | | |]; cbn [alloc_immc]; try (intros H; injection H as <-; reflexivity). intros H. apply bind_ok in H as (f' & Hf & H). apply bind_ok in H as (g' & Hg & H). apply bind_ok in H as (d' & Hd & H). injection H as <-. cbn [renamed]. now rewrite <- (O _ _ Hd), <- (O _ _ Hf), <- (O _ _ Hg).
Qed.
Theorem compiled_marked a s C n code lives X A fn B : resolve a = Ok s -> plain_names s -> immcgen s = Ok C -> pointers_last s = true -> allocate_regs n C = Ok (code, lives) -> x64gen code lives = Ok X -> C = A ++ fn ++ B -> is_function fn B ->
  exists place, (forall p c, nth_error fn p = Some c -> nth_error code (length A + p) = Some (renamed place c))
  /\ forall p t d f g, nth_error fn p = Some (IMMC_INST t d f g) -> exists X1 cs X2 st st', X = X1 ++ cs ++ X2 /\ gen_inst_x64code (renamed place (IMMC_INST t d f g)) st = Ok (cs, st')
  /\ forall r, live fn (S p) r -> goes_on (IMMC_INST t d f g) = true -> writes (IMMC_INST t d f g) <> Some r ->
     live_after st (Z.to_nat (place r)) /\ 0 <= place r < Z.of_nat n /\ forall w, writes (IMMC_INST t d f g) = Some w -> 0 <= w -> place w <> place r.
Proof.
  intros R PN G PL AL XG EC Fn. destruct (program_labels _ _ _ R PN G) as [ND _]. pose proof (program_regular _ _ _ R PN G PL) as Reg. unfold allocate_regs in AL.
  destruct (loop_marks n _ _ _ _ _ _ AL ltac:(lia) Reg ND (new_seqs n)) as (S & _ & Pc). destruct (Pc A fn B EC Fn) as (A' & fn' & B' & Ecode & LA & l & allocs & Cov & Da & Ga & Seq).
  assert (FI : function_in C fn) by (exists A, B; split; [exact EC | exact Fn]). destruct (Reg _ FI) as [Or _].
  exists (place_of allocs). destruct (allocated_length _ _ _ Ga) as [Ln Al].
  assert (Here : forall p c, nth_error fn p = Some c -> nth_error code (length A + p) = Some (renamed (place_of allocs) c)).
  { intros p c E. destruct (Al _ _ E) as (c' & E' & Q). apply alloc_renamed in Q. subst c'. rewrite Ecode, nth_error_app2, LA by lia. replace (length A + p - length A)%nat with p by lia. rewrite nth_error_app1 by (eapply nth_lt, E'). exact E'. }
  split; [exact Here |]. intros p t d f g E. specialize (Here _ _ E). cbn [renamed] in Here.
  assert (Steady : steady lives) by (intros k q Eq; exact (proj1 (S _ _ Eq))).
  destruct (x64gen_generated _ _ _ Steady (fun k q Eq => proj2 (proj2 (S _ _ Eq))) XG _ _ _ _ _ Here) as (X1 & cs & X2 & st & st' & EX & Gi & P).
  exists X1, cs, X2, st, st'. split; [exact EX |]. split; [exact Gi |]. intros r L Go W. set (c := IMMC_INST t d f g) in *. destruct Cov as (Lu & M & Ra & Bo). destruct (Lu _ _ L) as (R0 & y & Y & Yu).
  assert (Lp : live fn p r) by (eapply live_later; [exact E | exact W | exists c; eauto | exact L]). destruct (or_written _ Or _ _ Lp) as (q & cq & Lq & Eq & Wq). destruct (proj2 (M _ _ Eq) _ Wq R0) as (y' & Y' & Yd). assert (y' = y) by congruence. subst y'.
  destruct (allocation_ok _ _ _ _ Ra Da) as (La & Kr & _). destruct (nth_error allocs (Z.to_nat r)) as [k |] eqn:Ek; [| apply nth_error_None in Ek; apply nth_lt in Y; lia].
  assert (Pk : place_of allocs r = k) by (unfold place_of; exact (nth_error_nth _ _ _ Ek)). rewrite Pk. destruct (Seq _ _ _ Y Ek) as (K0 & sq & Es & Is). specialize (Kr _ _ Ek). split; [| split; [lia |]].
  - cbn [Z.add] in P. rewrite Nat2Z.inj_add in P. exact (positioned_alive _ _ _ _ _ _ Steady P Es Is ltac:(lia)).
  - intros w Ww W0 Q. assert (r <> w) by congruence. destruct (nth_error allocs (Z.to_nat w)) as [kw |] eqn:Ekw.
    + assert (Pw : place_of allocs w = kw) by (unfold place_of; exact (nth_error_nth _ _ _ Ekw)). rewrite Pw in Q. subst kw.
      assert (Cov : covers fn l (0 + Z.of_nat (length A))) by (split; [exact Lu | split; [exact M | split; [exact Ra | exact Bo]]]).
      refine (no_clash fn l _ n allocs p c w r k Or Cov Da _ E Ww Go L H W0 Ekw Ek). intros i k' Li Ki. destruct (nth_error l i) as [xi |] eqn:Xi; [exact (proj1 (Seq _ _ _ Xi Ki)) | apply nth_error_None in Xi; lia].
    + unfold place_of in Q. apply nth_error_None in Ekw. rewrite nth_overflow in Q by exact Ekw. lia.
Qed.
