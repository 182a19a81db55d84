(** Proofs for C48: the code of a function, instruction by instruction *)
From Verif Require Import Base ElabProofs SrtModel ResolverModel ImmcModel ImmcgenModel LabelSpec LabelProofs LabelProofs2 LabelProofs3 RegallocModel X64Model X64genModel X64Decode OpSpec RegSpec RegProofs RegProofs4 RegProofs6 OrderSpec OrderProofs8 CallSpec CallProofs CallProofs2 CallProofs3 CallProofs4 CallProofs6 MarkSpec MarkProofs MarkProofs2 MarkProofs3 MarkProofs4 SimSpec SimProofs.
Local Open Scope Z_scope.

(** * Registers saved *)
Definition keeps_evac (st : xst) (r : xres) : Prop := forall cs st', r = Ok (cs, st') -> x_evac st <= x_evac st'.
Lemma finish_evac cs st0 st : x_evac st <= x_evac st0 -> keeps_evac st (finish cs st0).
Proof. intros E ds st' H. unfold finish in H. apply bind_ok in H as (l & Hl & H). injection H as _ <-. exact E. Qed.
Lemma bind_evac {A} st (a : res A) f : (forall x, keeps_evac st (f x)) -> keeps_evac st (bind a f).
Proof. intros F cs st' H. apply bind_ok in H as (x & _ & H). exact (F x _ _ H). Qed.
Lemma no_evac st (r : xres) : (forall x, r <> Ok x) -> keeps_evac st r.
Proof. intros N cs st' H. destruct (N _ H). Qed.
Ltac evac := cbv beta zeta; try solve [apply no_evac; discriminate];
  lazymatch goal with
  | |- keeps_evac _ (bind _ _) => apply bind_evac; intros ?; evac
  | |- keeps_evac _ (finish _ _) => apply finish_evac; repeat match goal with |- context [if ?b then _ else _] => destruct b eqn:? end; cbn [x_evac]; lia
  | |- keeps_evac _ (match ?x with _ => _ end) => destruct x; evac
  | |- _ => idtac
  end.
Lemma inst_evac c st : keeps_evac st (gen_inst_x64code c st).
Proof.
  destruct c as [t d f s | | |]; try (apply no_evac; discriminate). unfold gen_inst_x64code.
  destruct t; unfold gen_load, gen_addr, gen_str, gen_store, gen_ldarg, gen_starg, gen_stret, gen_binary, gen_divisional, gen_unary, gen_shrot, gen_setcmp, by_sign, gen_jmp, gen_jcmp, gen_call, gen_enter, gen_leave, gen_prep, gen_clean; evac.
Qed.
Lemma label_evac c st : keeps_evac st (gen_label_x64code c st).
Proof. destruct c; unfold gen_label_x64code; evac. Qed.

(** * The body of a function *)
Section Lives.
Variable lives : list liveseq.
Hypothesis Steady : steady lives.
(** the code [cp] of [c], the instruction with number [i]; at most [ev] registers are saved *)
Definition piece (ev i : Z) (c : immc) (cp : list x64) : Prop :=
  exists st st', positioned lives i (x_lives st) /\ x_evac st' <= ev /\
  match c with
  | IMMC_LABEL t v n => exists w, cp = [X64_LABEL X64_LABEL_NORMAL w n] /\ t = IMMC_LABEL_NORMAL
  | _ => gen_inst_x64code c st = Ok (cp, st')
  end.
Lemma piece_more ev ev' i c cp : piece ev i c cp -> ev <= ev' -> piece ev' i c cp.
Proof. intros (st & st' & P & E & M) L. exists st, st'. split; [exact P |]. split; [lia | exact M]. Qed.
Lemma body_pieces sz rest : forall l st cs r st' i, gen_body_x64code (l ++ IMMC_INST IMMC_INST_LEAVE None sz None :: rest) st = Ok (cs, r, st') -> Forall (fun c => external c = false) l -> Forall ordinary l -> positioned lives i (x_lives st) ->
  r = IMMC_INST IMMC_INST_LEAVE None sz None :: rest /\ x_evac st <= x_evac st' /\ exists ps, cs = concat ps /\ length ps = length l /\ forall p c cp, nth_error l p = Some c -> nth_error ps p = Some cp -> piece (x_evac st') (i + Z.of_nat p) c cp.
Proof.
  induction l as [| c l IH]; intros st cs r st' i H X O P; cbn [app gen_body_x64code] in H.
  - injection H as <- <- <-. split; [reflexivity |]. split; [lia |]. exists []. split; [reflexivity |]. split; [reflexivity |]. intros p c cp E. destruct p; discriminate E.
  - apply Forall_cons_iff in X as [X X']. apply Forall_cons_iff in O as [O O'].
    assert (G : exists c1 st1 ds, moves st (Ok (c1, st1)) /\ (x_evac st1 <= x_evac st' -> piece (x_evac st') i c c1) /\ x_evac st <= x_evac st1 /\ gen_body_x64code (l ++ IMMC_INST IMMC_INST_LEAVE None sz None :: rest) st1 = Ok (ds, r, st') /\ cs = c1 ++ ds).
    { destruct c as [t d f g | | | t v n]; try discriminate H.
      - assert (H' : (do (cs, st0) <- gen_inst_x64code (IMMC_INST t d f g) st; do (ds, r, st0) <- gen_body_x64code (l ++ IMMC_INST IMMC_INST_LEAVE None sz None :: rest) st0; Ok (cs ++ ds, r, st0)) = Ok (cs, r, st')) by (destruct t; try exact H; destruct O).
        clear H. apply bind_ok in H' as ([c1 st1] & H1 & H'). apply bind_ok in H' as ([[ds r1] st2] & H2 & H'). injection H' as <- <- <-. exists c1, st1, ds. split; [rewrite <- H1; apply inst_moves |]. split; [intros L; exists st, st1; auto |]. split; [exact (inst_evac _ _ _ _ H1) | auto].
      - apply bind_ok in H as ([c1 st1] & H1 & H). apply bind_ok in H as ([[ds r1] st2] & H2 & H). injection H as <- <- <-. exists c1, st1, ds. split; [rewrite <- H1; apply label_moves |]. split; [intros L; exists st, st1; split; [exact P |]; split; [exact L |] |]; [| split; [exact (label_evac _ _ _ _ H1) | auto]].
        destruct t; try discriminate X. cbn [gen_label_x64code] in H1. unfold finish in H1. apply bind_ok in H1 as (lv & _ & H1). injection H1 as <- _. eexists. split; reflexivity. }
    destruct G as (c1 & st1 & ds & Mv & Pc & Ev & H2 & ->). assert (P1 := positioned_next _ _ _ _ Steady P (Mv _ _ eq_refl)). destruct (IH _ _ _ _ _ H2 X' O' P1) as (-> & Ev' & ps & -> & Lp & Hp). split; [reflexivity |]. split; [lia |].
    exists (c1 :: ps). split; [reflexivity |]. split; [cbn; now rewrite Lp |]. intros [| p] c' cp E1 E2; cbn in E1, E2.
    + injection E1 as <-. injection E2 as <-. rewrite Z.add_0_r. now apply Pc.
    + replace (i + Z.of_nat (S p)) with (i + 1 + Z.of_nat p) by lia. exact (Hp _ _ _ E1 E2).
Qed.
Definition frame_size (o : option ope) : option Z := match o with Some (IMMC_OPERAND_INT _ i) => Some (wraps 32 (sval i)) | _ => None end.
Lemma function_pieces k fn rest st cs r st' i : immc_function k fn -> gen_function_x64code (fn ++ rest) st = Ok (cs, r, st') -> positioned lives i (x_lives st) ->
  r = rest /\ positioned lives (i + Z.of_nat (length fn)) (x_lives st') /\
  exists v n sz body w size saved ps, fn = IMMC_LABEL IMMC_LABEL_FUNCTION v n :: IMMC_INST IMMC_INST_ENTER None sz None :: body ++ [IMMC_INST IMMC_INST_LEAVE None sz None]
    /\ cs = X64_LABEL X64_LABEL_FUNCTION w n :: prologue size saved ++ concat ps ++ epilogue size saved /\ (exists z, frame_size sz = Some z /\ min_multiple_of z 16 = Ok size)
    /\ saved = firstn (length saved) CALLEE_SAVED_REG_IDS /\ length ps = length body
    /\ forall p c cp, nth_error body p = Some c -> nth_error ps p = Some cp -> piece (Z.of_nat (length saved)) (i + 2 + Z.of_nat p) c cp.
Proof.
  intros FN H P. destruct (function_generated _ Steady _ _ _ _ _ _ H P) as (l1 & EL & _ & P'). destruct FN as (v & n & s & ii & body & EF & LV & EX). rewrite EF in H. cbn [app] in H. rewrite <- app_assoc in H. unfold gen_function_x64code in H. cbn [app] in H.
  apply bind_ok in H as ([lab st1] & H1 & H). apply bind_ok in H as ([head st2] & H2 & H). apply bind_ok in H as ([[b r1] st3] & H3 & H).
  assert (P1 : positioned lives (i + 1) (x_lives st1)) by (eapply next_at; [exact Steady | apply label_moves | exact H1 | exact P]). assert (P2 : positioned lives (i + 1 + 1) (x_lives st2)) by (eapply next_at; [exact Steady | apply inst_moves | exact H2 | exact P1]).
  cbn [gen_label_x64code] in H1. apply finish_ok in H1 as [-> E1]. cbn [x_evac] in E1.
  cbn [gen_inst_x64code] in H2. unfold gen_enter in H2. cbn [deref bind] in H2. apply bind_ok in H2 as (cnt & C1 & H2). apply bind_ok in H2 as (size & SZ & H2). apply finish_ok in H2 as [-> E2].
  apply (body_pieces _ _ _ _ _ _ _ (i + 2)) in H3 as (-> & LE & ps & -> & Lp & Hp); [| exact EX | apply LV | replace (i + 2) with (i + 1 + 1) by lia; exact P2].
  apply bind_ok in H as (regs & RG & H). cbv zeta in H. apply bind_ok in H as ([tail st4] & H4 & H). injection H as <- <- <-.
  cbn [gen_inst_x64code] in H4. unfold gen_leave in H4. cbn [deref bind] in H4. rewrite C1 in H4. cbn [bind] in H4. rewrite SZ in H4. cbn [bind] in H4. apply finish_ok in H4 as [-> E4].
  apply saved_regs_ok in RG as [R1 R2]; [| lia]. cbn [Z.to_nat skipn] in R1. split; [reflexivity |]. split; [apply app_inv_tail in EL; now subst l1 |].
  assert (OD : (Z.rem (x_evac st3) 2 =? 1) = Nat.odd (length regs)).
  { rewrite R2. rewrite Z.rem_mod_nonneg, Zmod_odd by lia. replace (x_evac st3) with (Z.of_nat (Z.to_nat (x_evac st3))) at 1 by lia. rewrite odd_nat. now destruct (Nat.odd (Z.to_nat (x_evac st3))). }
  rewrite OD. exists v, n, (Some (IMMC_OPERAND_INT s ii)), body, match v with IMMC_VIS_GLOBAL => X64_VIS_GLOBAL | IMMC_VIS_LOCAL => X64_VIS_LOCAL | IMMC_VIS_NONE => X64_VIS_NONE end, size, regs, ps. split; [exact EF |]. split.
  { unfold prologue, epilogue. rewrite <- !app_assoc. cbn [app]. repeat f_equal. }
  split. { unfold ope_count in C1. apply bind_ok in C1 as (il & C2 & C1). cbn in C2. injection C2 as <-. injection C1 as <-. eexists. split; [reflexivity | exact SZ]. }
  split; [rewrite R2; exact R1 |]. split; [exact Lp |]. intros p c cp A B. replace (Z.of_nat (length regs)) with (x_evac st3) by lia. exact (Hp _ _ _ A B).
Qed.
Lemma externals_function k : forall f l st X i, items k l -> gen_externals_x64code f l st = Ok X -> positioned lives i (x_lives st) -> forall A fn B, l = A ++ fn ++ B -> is_function fn B ->
  exists F, x64_function X F /\ exists st0 st1, immc_function k fn /\ gen_function_x64code (fn ++ B) st0 = Ok (F, B, st1) /\ positioned lives (i + Z.of_nat (length A)) (x_lives st0).
Proof.
  induction f as [| f IH]; intros l st X i I H P A fn B EL Fn; [discriminate H |]. cbn [gen_externals_x64code] in H. destruct I as [| fn1 rest FN I | v n ds rest ND I].
  - destruct Fn as ((v & m & body & -> & _) & _). destruct A; discriminate EL.
  - assert (FN' := FN). destruct FN as (v & n & s & ii & body & E & _ & EX). rewrite E in H at 1. cbn [app] in H. apply bind_ok in H as ([[cs r] st1] & H1 & H). apply bind_ok in H as (ds & H2 & H). injection H as <-.
    destruct (function_pieces _ _ _ _ _ _ _ _ FN' H1 P) as (-> & P1 & _). destruct (function_frame k _ _ _ _ _ _ FN' H1) as (_ & _ & _ & n' & v' & b' & EC & NB).
    assert (XH : match ds with [] => True | c :: _ => x64_external c = true end) by (destruct (externals_items _ _ _ _ _ I H2) as [XI _]; exact (xitems_head _ _ XI)).
    destruct Fn as ((w & m & bd & Efn & Fb) & Hb). destruct A as [| c A].
    + cbn [app] in EL. assert (EE : body ++ [IMMC_INST IMMC_INST_LEAVE None (Some (IMMC_OPERAND_INT s ii)) None] = body ++ [IMMC_INST IMMC_INST_LEAVE None (Some (IMMC_OPERAND_INT s ii)) None]) by reflexivity.
      rewrite E, Efn in EL. cbn [app] in EL. injection EL as -> -> EL. change (IMMC_INST IMMC_INST_ENTER None (Some (IMMC_OPERAND_INT s ii)) None :: (body ++ [IMMC_INST IMMC_INST_LEAVE None (Some (IMMC_OPERAND_INT s ii)) None]) ++ rest) with ((IMMC_INST IMMC_INST_ENTER None (Some (IMMC_OPERAND_INT s ii)) None :: body ++ [IMMC_INST IMMC_INST_LEAVE None (Some (IMMC_OPERAND_INT s ii)) None]) ++ rest) in EL.
      apply xspan_unique with (ext := external) in EL as [E1 E2]; [| constructor; [reflexivity |]; apply Forall_app; split; [exact EX | repeat constructor] | exact Fb | exact (items_head _ _ I) | destruct B as [| b B]; [exact Logic.I | now apply (Hb b B)]].
      assert (EF : fn = fn1) by (rewrite E, Efn, E1; reflexivity). clear E Efn. subst fn1 rest. exists cs. split.
      * exists [], ds, v', n', b'. split; [reflexivity |]. split; [exact EC |]. split; [now apply Forall_forall | exact XH].
      * exists st, st1. split; [exact FN' |]. split; [exact H1 |]. cbn. now rewrite Z.add_0_r.
    + assert (EL' := EL). rewrite E in EL. cbn [app] in EL. injection EL as <- EL. symmetry in EL. rewrite Efn in EL. cbn [app] in EL.
      change (IMMC_INST IMMC_INST_ENTER None (Some (IMMC_OPERAND_INT s ii)) None :: (body ++ [IMMC_INST IMMC_INST_LEAVE None (Some (IMMC_OPERAND_INT s ii)) None]) ++ rest) with ((IMMC_INST IMMC_INST_ENTER None (Some (IMMC_OPERAND_INT s ii)) None :: body ++ [IMMC_INST IMMC_INST_LEAVE None (Some (IMMC_OPERAND_INT s ii)) None]) ++ rest) in EL.
      destruct (xafter_span external _ _ _ _ _ EL) as (A2 & EA & ER); [constructor; [reflexivity |]; apply Forall_app; split; [exact EX | repeat constructor] | reflexivity |].
      assert (ER' : rest = A2 ++ fn ++ B) by (rewrite Efn; exact ER).
      destruct (IH _ _ _ _ I H2 P1 A2 fn B ER' (conj (ex_intro _ w (ex_intro _ m (ex_intro _ bd (conj Efn Fb)))) Hb)) as (F & (be & af & w' & m' & bb & XE & X2) & st0 & st2 & Q1 & Q2 & Q3). exists F. split.
      * exists (cs ++ be), af, w', m', bb. split; [rewrite XE, <- app_assoc; reflexivity | exact X2].
      * exists st0, st2. split; [exact Q1 |]. split; [exact Q2 |]. replace (i + Z.of_nat (length (IMMC_LABEL IMMC_LABEL_FUNCTION v n :: A))) with (i + Z.of_nat (length fn1) + Z.of_nat (length A2)); [exact Q3 |]. rewrite EA, E. repeat (cbn [length app] || rewrite app_length). lia.
  - apply bind_ok in H as ([[cs r] st1] & H1 & H). apply bind_ok in H as (ds' & H2 & H). injection H as <-. unfold gen_variable_x64code in H1. apply bind_ok in H1 as ([lb st2] & H0 & H1). apply bind_ok in H1 as ([[dd r1] st3] & H1 & H3). injection H3 as <- <- <-.
    assert (P0 : positioned lives (i + 1) (x_lives st2)) by (eapply next_at; [exact Steady | apply label_moves | exact H0 | exact P]). destruct (datas_generated _ Steady _ _ _ _ _ _ H1 P0) as (l1 & El1 & _ & P1).
    apply datas_plain in H1 as (-> & F & N); [| exact (items_head _ _ I) | assumption]. apply app_inv_tail in El1. subst l1.
    destruct Fn as ((w & m & bd & Efn & Fb) & Hb). destruct A as [| c A]; [rewrite Efn in EL; discriminate EL |]. cbn [app] in EL. injection EL as <- EL. symmetry in EL. rewrite Efn in EL. cbn [app] in EL.
    destruct (xafter_span external _ _ _ _ _ EL ND eq_refl) as (A2 & EA & ER). assert (ER' : rest = A2 ++ fn ++ B) by (rewrite Efn; exact ER).
    destruct (IH _ _ _ _ I H2 P1 A2 fn B ER' (conj (ex_intro _ w (ex_intro _ m (ex_intro _ bd (conj Efn Fb)))) Hb)) as (F' & (be & af & w' & m' & bb & XE & X2) & st0 & st4 & Q1 & Q2 & Q3). exists F'. split.
    + exists ((lb ++ dd) ++ be), af, w', m', bb. split; [rewrite XE, <- !app_assoc; reflexivity | exact X2].
    + exists st0, st4. split; [exact Q1 |]. split; [exact Q2 |]. replace (i + Z.of_nat (length (IMMC_LABEL IMMC_LABEL_VARIABLE v n :: A))) with (i + 1 + Z.of_nat (length ds) + Z.of_nat (length A2)); [exact Q3 |]. rewrite EA. cbn [length]. rewrite app_length. lia.
Qed.
End Lives.
