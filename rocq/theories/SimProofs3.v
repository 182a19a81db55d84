(** Proofs for C48: compiled functions, and the registers live in them *)
From Verif Require Import Base ElabProofs SrtModel ResolverModel ImmcModel ImmcgenModel ImmcSem LabelSpec LabelProofs LabelProofs2 LabelProofs3 RegallocModel X64Model X64genModel X64Decode OpSpec RegSpec RegProofs RegProofs2 RegProofs4 RegProofs6 OrderSpec OrderProofs PaceProofs OrderProofs8 OrderProofs9 CallSpec CallProofs CallProofs2 CallProofs3 CallProofs4 CallProofs6 MarkSpec MarkProofs MarkProofs2 MarkProofs3 MarkProofs4 SimSpec SimProofs SimProofs2.
Local Open Scope Z_scope.

(** a live register is read further on *)
Lemma live_read_later fn : fresh_loops fn -> forall p r, live fn p r -> ~ not_read r (skipn p fn).
Proof.
  intros Fr p r L. induction L as [p c r E I | p q c r E W Fo L IH].
  - intros N. apply (N c); [| exact I]. apply nth_error_split in E as (a & b & -> & <-). rewrite skipn_app, skipn_all, Nat.sub_diag. cbn. now left.
  - destruct (Nat.le_gt_cases q p) as [Q | Q].
    + destruct Fo as (c' & E' & [[_ Q'] | (n & G & La)]); [lia |]. destruct (Fr _ _ _ _ r E' G La Q L).
    + intros N. apply IH. intros x I. apply N. replace q with (p + (q - p))%nat in I by lia. clear - I. revert fn I. induction p as [| p IHp]; intros fn I; [cbn in I |- *; revert fn I; generalize (q - 0)%nat; induction n as [| n IHn]; intros fn I; [exact I | destruct fn; [exact I | right; exact (IHn _ I)]] |].
      destruct fn; [destruct (q - S p)%nat in I; exact I |]. cbn [Nat.add skipn] in I |- *. revert I. generalize (q - S p)%nat. intros d I. clear IHp. revert fn I. induction p as [| p IHp]; intros fn I; [cbn in I |- *; revert fn I; induction d as [| d IHd]; intros fn I; [exact I | destruct fn; [exact I | right; exact (IHd _ I)]] |]. destruct fn; [exact I |]. exact (IHp _ I).
Qed.
Lemma Forall2_drop {A B} (R : A -> B -> Prop) : forall a a' b b', length a = length a' -> Forall2 R (a ++ b) (a' ++ b') -> Forall2 R b b'.
Proof. induction a as [| x a IH]; intros [| y a'] b b' L F; try discriminate L; [exact F |]. cbn in F. inversion F; subst. eapply IH; [| eassumption]. now injection L. Qed.
Lemma external_renamed place c : external (renamed place c) = external c. Proof. now destruct c. Qed.
Lemma all_renamed allocs : forall l l', gen_allocated_immcs allocs l = Ok l' -> l' = List.map (renamed (place_of allocs)) l.
Proof. induction l as [| c l IH]; intros l' H; cbn [gen_allocated_immcs] in H; [now injection H as <- |]. apply bind_ok in H as (c' & Hc & H). apply bind_ok in H as (r & Hr & H). injection H as <-. cbn. now rewrite <- (IH _ Hr), (alloc_renamed _ _ _ Hc). Qed.

(** the code [cp] of the instruction [c] with number [p] of the function [fn] *)
Definition cut (place : Z -> Z) (ev : Z) (fn : list immc) (p : nat) (c : immc) (cp : list x64) : Prop :=
  match c with
  | IMMC_LABEL _ v n => exists w, cp = [X64_LABEL X64_LABEL_NORMAL w n]
  | _ => exists st st', gen_inst_x64code (renamed place c) st = Ok (cp, st') /\ x_evac st' <= ev
      /\ ((forall w, writes c = Some w -> 0 <= w) -> spot place (live fn p) (fun r => goes_on c = true /\ live fn (S p) r) (skipn (S p) fn) st c)
  end.
Theorem compiled_pieces a s C n code lives X A fn B : resolve a = Ok s -> plain_names s -> immcgen s = Ok C -> pointers_last s = true -> few_arguments s -> allocate_regs n C = Ok (code, lives) -> x64gen code lives = Ok X -> C = A ++ fn ++ B -> is_function fn B ->
  orderly fn /\ NoDup (labels fn) /\ exists place F v m sz body w size saved ps,
    firstn (length fn) (skipn (length A) code) = List.map (renamed place) fn /\ x64_function X F
    /\ fn = IMMC_LABEL IMMC_LABEL_FUNCTION v m :: IMMC_INST IMMC_INST_ENTER None sz None :: body ++ [IMMC_INST IMMC_INST_LEAVE None sz None]
    /\ F = X64_LABEL X64_LABEL_FUNCTION w m :: prologue size saved ++ concat ps ++ epilogue size saved /\ (exists z, frame_size sz = Some z /\ min_multiple_of z 16 = Ok size)
    /\ saved = firstn (length saved) CALLEE_SAVED_REG_IDS /\ length ps = length body
    /\ forall p c cp, nth_error body p = Some c -> nth_error ps p = Some cp -> cut place (Z.of_nat (length saved)) fn (2 + p) c cp.
Proof.
  intros R PN G PL FA AL XG EC Fn. destruct (program_labels _ _ _ R PN G) as [ND _]. pose proof (program_regular _ _ _ R PN G PL) as Reg. assert (AK := regs_alike _ _ _ _ AL). assert (SC : sound_calls false s) by (split; [exact FA | discriminate]).
  assert (IT := items_alike _ _ (program_items false _ _ _ R PN G SC) _ AK). unfold allocate_regs in AL.
  destruct (loop_marks n _ _ _ _ _ _ AL ltac:(lia) Reg ND (new_seqs n)) as (S & _ & Pc). destruct (Pc A fn B EC Fn) as (A' & fn' & B' & Ecode & LA & l & allocs & Cov & Da & Ga & Seq).
  assert (FI : function_in C fn) by (exists A, B; split; [exact EC | exact Fn]). destruct (Reg _ FI) as (Or & _ & Fr). split; [exact Or |].
  split; [rewrite EC, !labels_app in ND; eapply nodup_app_l, nodup_app_r, ND |].
  assert (En := all_renamed _ _ _ Ga). set (place := place_of allocs) in *. assert (Ln : length fn' = length fn) by (rewrite En; apply map_length).
  assert (Steady : steady lives) by (intros k q Eq; exact (proj1 (S _ _ Eq))). assert (P0 : positioned lives 0 lives) by (apply positioned_start; [exact Steady | intros k q Eq; exact (proj2 (proj2 (S _ _ Eq)))]).
  assert (Fn' : is_function fn' B').
  { destruct Fn as ((v & m & body & Ef & Fb) & Hb). split.
    - exists v, m, (List.map (renamed place) body). split; [rewrite En, Ef; reflexivity |]. apply Forall_forall. intros c I. apply in_map_iff in I as (c0 & <- & I). rewrite external_renamed. rewrite Forall_forall in Fb. now apply Fb.
    - intros b B2 EB. rewrite EC, Ecode in AK. apply (Forall2_drop _ A A') in AK; [| now symmetry]. apply (Forall2_drop _ fn fn') in AK; [| now symmetry]. subst B'. inversion AK as [| x y B1 B3 Q1 Q2]; subst. apply alike_facts in Q1. destruct Q1 as (_ & _ & _ & _ & _ & Q1). rewrite Q1. eapply Hb. reflexivity. }
  destruct (externals_function lives Steady false _ _ _ _ 0 IT XG P0 _ _ _ Ecode Fn') as (F & XF & st0 & st1 & IF & GF & PF). cbn [Z.add] in PF.
  destruct (function_pieces lives Steady _ _ _ _ _ _ _ _ IF GF PF) as (_ & _ & v & m & sz & body' & w & size & saved & ps & EF & EX & SZ & SV & Lp & Hp).
  (* the function before allocation *)
  assert (Sh : exists sz body, sz = sz /\ body' = List.map (renamed place) body /\ fn = IMMC_LABEL IMMC_LABEL_FUNCTION v m :: IMMC_INST IMMC_INST_ENTER None sz None :: body ++ [IMMC_INST IMMC_INST_LEAVE None sz None] /\ (exists z, frame_size sz = Some z /\ min_multiple_of z 16 = Ok size)).
  { rewrite En in EF. destruct fn as [| c1 [| c2 fn0]]; try discriminate EF. cbn [List.map] in EF. injection EF as E1 E2 E3. destruct c1; try discriminate E1. cbn in E1. injection E1 as -> -> ->. assert (frame_size (renamed_operand place sz) = frame_size sz) by (destruct sz as [[] |]; reflexivity).
    assert (K : exists fb y, fn0 = fb ++ [y]) by (destruct (exists_last (l := fn0)) as (fb & y & ->); [intros ->; destruct body'; discriminate E3 | eauto]). destruct K as (fb & y & ->). rewrite map_app in E3. apply app_inj_tail in E3 as [E3 E4].
    assert (Sz : forall t c, renamed place c = IMMC_INST t None sz None -> c = IMMC_INST t None sz None).
    { destruct SZ as (z & Z1 & _). intros t c Q. destruct c as [t' d f g | | |]; try discriminate Q. cbn in Q. injection Q as -> Q1 Q2 Q3. destruct d as [[] |]; try discriminate Q1. destruct g as [[] |]; try discriminate Q3. f_equal. destruct f as [[] |]; cbn in Q2; subst sz; try discriminate Z1; reflexivity. }
    exists sz, fb. split; [reflexivity |]. split; [now symmetry |]. rewrite (Sz _ _ E2), (Sz _ _ E4). split; [reflexivity | exact SZ]. }
  destruct Sh as (sz' & body & _ & Eb & Ef & SZ').
  exists place, F, v, m, sz', body, w, size, saved, ps. split.
  { rewrite Ecode, <- LA, skipn_app, skipn_all, Nat.sub_diag. cbn [skipn app]. rewrite <- Ln, firstn_app, firstn_all, Nat.sub_diag. cbn [firstn]. now rewrite app_nil_r. }
  split; [exact XF |]. split; [exact Ef |]. split; [exact EX |]. split; [exact SZ' |]. split; [exact SV |]. split; [rewrite Lp, Eb; apply map_length |].
  intros p c cp Ec Ecp. assert (Ec' : nth_error body' p = Some (renamed place c)) by (rewrite Eb; now apply map_nth_error). assert (Pi := Hp _ _ _ Ec' Ecp).
  assert (E : nth_error fn (2 + p) = Some c) by (rewrite Ef; cbn [Nat.add nth_error]; rewrite nth_error_app1 by (eapply nth_lt, Ec); exact Ec).
  destruct Pi as (st & st' & Po & Ev & Gi). unfold cut. destruct c as [t d f g | | | lt lv ln]; cbn [renamed] in Gi |- *; [| discriminate Gi..| destruct Gi as (w' & -> & _); eauto].
  exists st, st'. split; [exact Gi |]. split; [exact Ev |]. intros W0. set (c := IMMC_INST t d f g) in *. set (q := (2 + p)%nat) in *.
  assert (Cov' := Cov). destruct Cov as (Lu & M & Ra & Bo). destruct (allocation_ok _ _ _ _ Ra Da) as (La & Kr & Ap).
  assert (LR : forall q r, live fn q r -> exists y k, 0 <= r /\ range l r y /\ nth_error allocs (Z.to_nat r) = Some k /\ place r = k /\ 0 <= k /\ first_def y < Z.of_nat (length A) + Z.of_nat q <= last_use y).
  { intros q0 r L. destruct (Lu _ _ L) as (R0 & y & Y & Yu). destruct (or_written _ Or _ _ L) as (q1 & cq & Lq & Eq & Wq). destruct (proj2 (M _ _ Eq) _ Wq R0) as (y' & Y' & Yd). assert (y' = y) by congruence. subst y'.
    destruct (nth_error allocs (Z.to_nat r)) as [k |] eqn:Ek; [| apply nth_error_None in Ek; apply nth_lt in Y; lia]. assert (Pk : place r = k) by (unfold place, place_of; exact (nth_error_nth _ _ _ Ek)). destruct (Seq _ _ _ Y Ek) as (K0 & _). exists y, k. cbn [Z.add] in *. repeat split; auto; lia. }
  constructor.
  - intros r I. eapply live_read; [exact E | exact I].
  - intros r r' L1 L2 N Q. destruct (LR _ _ L1) as (y1 & k1 & R1 & Y1 & K1 & P1 & Z1 & B1), (LR _ _ L2) as (y2 & k2 & R2 & Y2 & K2 & P2 & Z2 & B2). assert (Kk : k2 = k1) by congruence. rewrite Kk in K2.
    destruct (Z.lt_trichotomy r r') as [Lt | [Q' | Lt]]; [| congruence |].
    + specialize (Ap (Z.to_nat r) (Z.to_nat r') k1 y1 y2 ltac:(lia) K1 K2 Z1 Y1 Y2). lia.
    + specialize (Ap (Z.to_nat r') (Z.to_nat r) k1 y2 y1 ltac:(lia) K2 K1 Z1 Y2 Y1). lia.
  - intros r (Go & L) W. eapply live_later; [exact E | exact W | exists c; eauto | exact L].
  - intros r wr (Go & L) Ww N Q. destruct (LR _ _ L) as (y1 & k1 & R1 & Y1 & K1 & P1 & Z1 & B1). destruct (nth_error allocs (Z.to_nat wr)) as [kw |] eqn:Ekw.
    + assert (Pw : place wr = kw) by (unfold place, place_of; exact (nth_error_nth _ _ _ Ekw)). assert (Kk : kw = k1) by congruence. rewrite Kk in Ekw.
      refine (no_clash fn l _ n allocs q c wr r k1 Or Cov' Da _ E Ww Go L (fun e => N (eq_sym e)) (W0 _ Ww) Ekw K1). intros i k' Li Ki. destruct (nth_error l i) as [xi |] eqn:Xi; [exact (proj1 (Seq _ _ _ Xi Ki)) | apply nth_error_None in Xi; lia].
    + unfold place, place_of in Q. apply nth_error_None in Ekw. rewrite nth_overflow in Q by exact Ekw. fold (place_of allocs r) in Q. change (place_of allocs r) with (place r) in Q. lia.
  - intros r (Go & L) W. assert (Lp' : live fn q r) by (eapply live_later; [exact E | exact W | exists c; eauto | exact L]). destruct (LR _ _ L) as (y1 & k1 & R1 & Y1 & K1 & P1 & Z1 & B1), (LR _ _ Lp') as (y2 & k2 & _ & Y2 & _ & _ & _ & B2).
    assert (y2 = y1) by congruence. subst y2. split; [| lia]. rewrite P1. destruct (Seq _ _ _ Y1 K1) as (_ & sq & Es & Is). unfold live_after. refine (positioned_alive _ _ _ _ _ _ Steady Po Es Is _). rewrite LA. unfold q in *. lia.
  - intros r (Go & L). exact (live_read_later _ Fr _ _ L).
Qed.
