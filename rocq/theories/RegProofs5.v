(** Code with machine registers in place of its own does the same *)
From Verif Require Import Base MapModel SetModel ImmcModel X64Isa OpSpec X64Decode CSem ImmcSem RegallocModel ElabProofs LabelSpec RegSpec RegProofs.
Open Scope Z_scope.

Section Step.
Variables (call : caller) (lab : name -> option Z) (frame : Z) (params : list (size * Z)) (allocs : list Z).
Definition peers (q q' : istate) : Prop := i_args q' = i_args q /\ i_ret q' = i_ret q /\ i_world q' = i_world q.
Definition carried (q q' : istate) (rs : list Z) : Prop := forall r v, In r rs -> i_regs q r = Some v -> exists k, 0 <= r /\ nth_error allocs (Z.to_nat r) = Some k /\ i_regs q' k = Some v.
Definition ope_alloc (o o' : ope) : Prop := alloc_ope allocs (Some o) = Ok (Some o').
Lemma alloc_reg_ok r r' : alloc_reg allocs r = Ok r' -> 0 <= reg_id r /\ nth_error allocs (Z.to_nat (reg_id r)) = Some (reg_id r') /\ reg_unsigned r' = reg_unsigned r.
Proof. unfold alloc_reg. intros H. apply bind_ok in H as (k & Hk & H). apply at_Z_ok in Hk as [A B]. injection H as <-. auto. Qed.
Lemma ope_some o x : alloc_ope allocs (Some o) = Ok x -> exists o', x = Some o' /\ ope_alloc o o'.
Proof.
  unfold ope_alloc. intros H. rewrite H. destruct o; cbn in H; try (injection H as <-; eauto; fail).
  - apply bind_ok in H as (r' & _ & H). injection H as <-. eauto.
  - apply bind_ok in H as (r' & _ & H). injection H as <-. eauto.
Qed.
Lemma ope_cases o o' : ope_alloc o o' -> match o with
  | IMMC_OPERAND_REG s r => exists r', o' = IMMC_OPERAND_REG s r' /\ alloc_reg allocs r = Ok r'
  | IMMC_OPERAND_PTR r => exists r', o' = IMMC_OPERAND_PTR r' /\ alloc_reg allocs r = Ok r'
  | _ => o' = o end.
Proof.
  unfold ope_alloc. destruct o; cbn; intros H; try congruence.
  - apply bind_ok in H as (r' & Hr & H). injection H as <-. eauto.
  - apply bind_ok in H as (r' & Hr & H). injection H as <-. eauto.
Qed.
Lemma ope_size o o' : ope_alloc o o' -> operand_size o' = operand_size o.
Proof. intros H. apply ope_cases in H. destruct o; try (subst; reflexivity); destruct H as (r' & -> & _); reflexivity. Qed.
Lemma ope_unsigned o o' : ope_alloc o o' -> operand_unsigned o' = operand_unsigned o.
Proof. intros H. apply ope_cases in H. destruct o; try (subst; reflexivity); destruct H as (r' & -> & A); try reflexivity. apply alloc_reg_ok in A. cbn. apply A. Qed.
Lemma ope_memory o o' : ope_alloc o o' -> is_memory o' = is_memory o.
Proof. intros H. apply ope_cases in H. destruct o; try (subst; reflexivity); destruct H as (r' & -> & _); reflexivity. Qed.
Lemma ope_common f f' g g' : ope_alloc f f' -> ope_alloc g g' -> common f' g' = common f g.
Proof.
  intros F G. assert (Sf := ope_size _ _ F). assert (Sg := ope_size _ _ G). apply ope_cases in F. apply ope_cases in G.
  destruct f, g; repeat (match goal with H : exists _, _ |- _ => destruct H as (? & -> & _) end); subst; try reflexivity; unfold common in *; cbn in *; try rewrite Sf; try rewrite Sg; reflexivity.
Qed.
Lemma ope_value q q' o o' v : ope_alloc o o' -> carried q q' (operand_register (Some o)) -> ivalue q o = Some v -> ivalue q' o' = Some v.
Proof.
  intros H K V. apply ope_cases in H. destruct o; try (subst; exact V); try discriminate V. destruct H as (r' & -> & A). apply alloc_reg_ok in A as (R & N & U). cbn [ivalue] in *. destruct (suffix_size s); [| discriminate V].
  destruct (i_regs q (reg_id r)) as [[s' x] |] eqn:E; [| discriminate V]. destruct (K (reg_id r) _ (or_introl eq_refl) E) as (k & _ & N' & E'). assert (k = reg_id r') by congruence. subst k. rewrite E', U. exact V.
Qed.
Lemma ope_address q q' o o' a : ope_alloc o o' -> carried q q' (operand_register (Some o)) -> iaddress lab frame q o = Some a -> iaddress lab frame q' o' = Some a.
Proof.
  intros H K V. apply ope_cases in H. destruct o; try (subst; exact V); [discriminate V |]. destruct H as (r' & -> & A). apply alloc_reg_ok in A as (R & N & U). cbn [iaddress] in *.
  destruct (i_regs q (reg_id r)) as [[s' x] |] eqn:E; [| discriminate V]. destruct (K (reg_id r) _ (or_introl eq_refl) E) as (k & _ & N' & E'). assert (k = reg_id r') by congruence. subst k. rewrite E'. exact V.
Qed.
(** one instruction *)
Definition goes_along (w : option Z) (q q' q1 q1' : istate) : Prop :=
  peers q1 q1' /\
  ((i_regs q1 = i_regs q /\ i_regs q1' = i_regs q' /\ w = None) \/
   exists s k v, w = Some s /\ 0 <= s /\ nth_error allocs (Z.to_nat s) = Some k /\ i_regs q1 = upd (i_regs q) s (Some v) /\ i_regs q1' = upd (i_regs q') k (Some v)).
Definition along (w : option Z) (q q' : istate) (o o' : iout) : Prop :=
  match o with
  | INext q1 => exists q1', o' = INext q1' /\ goes_along w q q' q1 q1'
  | IGoto n q1 => exists q1', o' = IGoto n q1' /\ q1 = q /\ q1' = q'
  | IDone q1 => exists q1', o' = IDone q1' /\ peers q1 q1'
  | IStuck => True
  end.
Lemma put_along d d' v q q' : ope_alloc d d' -> peers q q' -> along (match d with IMMC_OPERAND_REG _ r => Some (reg_id r) | _ => None end) q q' (put_result d v q) (put_result d' v q').
Proof.
  intros D (A & B & C). assert (D' := D). apply ope_cases in D. destruct d; try exact I. destruct D as (r' & -> & Ar). apply alloc_reg_ok in Ar as (R & N & _). cbn [put_result]. destruct (suffix_size s) as [z |]; [| exact I]. cbn [along]. eexists. split; [reflexivity |].
  split; [repeat split; assumption |]. right. exists (reg_id r), (reg_id r'), (z, low z v). auto.
Qed.
Lemma put_call d d' v W q q' : ope_alloc d d' -> peers q q' -> along (match d with IMMC_OPERAND_REG _ r => Some (reg_id r) | _ => None end) q q' (put_result d v (set_world W q)) (put_result d' v (set_world W q')).
Proof.
  intros D (A & B & C). assert (D' := D). apply ope_cases in D. destruct d; try exact I. destruct D as (r' & -> & Ar). apply alloc_reg_ok in Ar as (R & N & _). cbn [put_result]. destruct (suffix_size s) as [z |]; [| exact I]. cbn [along]. eexists. split; [reflexivity |].
  split; [repeat split; assumption |]. right. exists (reg_id r), (reg_id r'), (z, low z v). auto.
Qed.
Lemma carried_sub q q' rs rs' : carried q q' rs -> (forall r, In r rs' -> In r rs) -> carried q q' rs'.
Proof. intros K S r v I. apply K. auto. Qed.
Lemma along_world W q q' : peers q q' -> along None q q' (INext (set_world W q)) (INext (set_world W q')).
Proof. intros (A & B & C). eexists. split; [reflexivity |]. split; [repeat split; assumption |]. left. auto. Qed.
Lemma along_args l q q' : peers q q' -> along None q q' (INext (set_args l q)) (INext (set_args l q')).
Proof. intros (A & B & C). eexists. split; [reflexivity |]. split; [repeat split; assumption |]. left. auto. Qed.
Lemma along_ret l q q' : peers q q' -> along None q q' (INext (set_ret l q)) (INext (set_ret l q')).
Proof. intros (A & B & C). eexists. split; [reflexivity |]. split; [repeat split; assumption |]. left. auto. Qed.
Lemma along_same q q' : peers q q' -> along None q q' (INext q) (INext q').
Proof. intros P. eexists. split; [reflexivity |]. split; [exact P |]. left. auto. Qed.
Lemma along_goto n q q' : along None q q' (IGoto n q) (IGoto n q').
Proof. eexists. split; [reflexivity |]. auto. Qed.
Ltac along_ope :=
  repeat match goal with
  | H : alloc_ope allocs (Some ?o) = Ok ?x |- _ =>
      let o' := fresh o "a" in let E := fresh "E" in let P := fresh "Op" in destruct (ope_some _ _ H) as (o' & E & P); clear H; subst x
  | H : alloc_ope allocs None = Ok ?x |- _ => injection H as <-
  end.
Ltac stuck := match goal with |- along _ _ _ ?x _ => assert (x = IStuck) as ->; [cbn [istep binop]; repeat (match goal with |- context [match ?y with _ => _ end] => destruct y end; try reflexivity) | exact I] end.
Lemma istep_along c c' q q' : alloc_immc allocs c = Ok c' -> peers q q' -> carried q q' (reads c) -> along (writes c) q q' (istep call lab frame params c q) (istep call lab frame params c' q').
Proof.
  intros H P K. destruct c as [t d f g | | | t v n]; cbn [alloc_immc] in H; try exact I.
  2: { injection H as <-. now apply along_same. }
  apply bind_ok in H as (f' & Hf & H). apply bind_ok in H as (g' & Hg & H). apply bind_ok in H as (d' & Hd & H). injection H as <-.
  assert (Kf : carried q q' (operand_register f)) by (eapply carried_sub; [exact K |]; intros r I; cbn [reads]; rewrite !in_app_iff; auto).
  assert (Kg : carried q q' (operand_register g)) by (eapply carried_sub; [exact K |]; intros r I; cbn [reads]; rewrite !in_app_iff; auto).
  assert (Kd : carried q q' (match d with Some (IMMC_OPERAND_PTR r) => [reg_id r] | _ => [] end)) by (eapply carried_sub; [exact K |]; intros r I; cbn [reads]; rewrite !in_app_iff; auto). clear K.
  assert (P' := P). destruct P' as (Pa & Pr & Pw).
  (* destination in memory: its register is among the ones read *)
  assert (Dst : forall o o' a, d = Some o -> ope_alloc o o' -> iaddress lab frame q o = Some a -> iaddress lab frame q' o' = Some a /\ writes (IMMC_INST t d f g) = None).
  { intros o o' a -> A Ad. destruct o; try discriminate Ad; (split; [eapply ope_address; eauto; intros x y [] | reflexivity]) || (split; [eapply ope_address; eauto | reflexivity]). }
  assert (Wr : forall o, d = Some o -> writes (IMMC_INST t d f g) = match o with IMMC_OPERAND_REG _ r => Some (reg_id r) | _ => None end) by (intros o ->; destruct o; reflexivity).
  destruct d as [d |], f as [f |], g as [g |]; along_ope; try (destruct t; exact I).
  - (* three operands *)
    assert (Go : forall x, along (writes (IMMC_INST t (Some d) (Some f) (Some g))) q q' (put_result d x q) (put_result da x q')) by (intros x; rewrite (Wr _ eq_refl); apply put_along; assumption).
    match goal with F : ope_alloc f _, G : ope_alloc g _, D : ope_alloc d _ |- _ => assert (Cm := ope_common _ _ _ _ F G); assert (Uu := ope_unsigned _ _ F); assert (Ud := ope_unsigned _ _ D); assert (Ag := ope_cases _ _ G); assert (Ad := ope_cases _ _ D);
      assert (Vf : forall v, ivalue q f = Some v -> ivalue q' fa = Some v) by (intros v V; eapply ope_value; eauto); assert (Vg : forall v, ivalue q g = Some v -> ivalue q' ga = Some v) by (intros v V; eapply ope_value; eauto);
      assert (Af : forall v, iaddress lab frame q f = Some v -> iaddress lab frame q' fa = Some v) by (intros v V; eapply ope_address; eauto) end.
    assert (Both : forall k k' : size -> Z -> Z -> iout, (forall s a b, along (writes (IMMC_INST t (Some d) (Some f) (Some g))) q q' (k s a b) (k' s a b)) ->
      along (writes (IMMC_INST t (Some d) (Some f) (Some g))) q q' (match common f g, ivalue q f, ivalue q g with Some s, Some a, Some b => k s a b | _, _, _ => IStuck end) (match common fa ga, ivalue q' fa, ivalue q' ga with Some s, Some a, Some b => k' s a b | _, _, _ => IStuck end)).
    { intros k k' A. rewrite Cm. destruct (common f g); [| exact I]. destruct (ivalue q f) as [a |] eqn:E1; [| exact I]. rewrite (Vf _ eq_refl). destruct (ivalue q g) as [b |] eqn:E2; [| exact I]. rewrite (Vg _ eq_refl). apply A. }
    destruct t; try exact I;
    try (cbn [istep]; rewrite Uu; apply Both; intros s a b; match goal with |- context [OpSpec.compare ?t ?u s a b] => destruct (OpSpec.compare t u s a b) as [r |]; [apply Go | exact I] end);
    try (cbn [istep]; rewrite ?Ud, ?Uu; apply Both; intros s a b; match goal with |- context [binop ?t ?u s a b] => destruct (binop t u s a b) as [r |]; [apply Go | exact I] end);
    try (destruct d; try (clear; stuck; fail); subst da; cbn [istep]; rewrite Uu; apply (Both (fun s a b => match OpSpec.compare _ _ s a b with Some r => if r then IGoto n q else INext q | None => IStuck end) (fun s a b => match OpSpec.compare _ _ s a b with Some r => if r then IGoto n q' else INext q' | None => IStuck end)); intros s a b; match goal with |- context [OpSpec.compare ?t ?u s a b] => destruct (OpSpec.compare t u s a b) as [[|] |]; [apply along_goto | apply along_same; exact P | exact I] end).
    all: try (clear; stuck; fail).
    destruct g; try (clear; stuck; fail). subst ga. cbn [istep]. destruct (iaddress lab frame q f) as [a |] eqn:Ea; [| exact I]. rewrite (Af _ eq_refl), Pa, Pw. destruct (i_args q) as [| sl r] eqn:Er; [exact I |]. destruct (collect_args sl _ 0); [| exact I]. destruct (call a l (i_world q)) as [[x W] | | | |]; try exact I.
    rewrite (Wr _ eq_refl). apply put_call; assumption.
  - (* two *)
    assert (Go : forall x, along (writes (IMMC_INST t (Some d) (Some f) None)) q q' (put_result d x q) (put_result da x q')) by (intros x; rewrite (Wr _ eq_refl); apply put_along; assumption).
    match goal with F : ope_alloc f _, D : ope_alloc d _ |- _ => assert (Sf := ope_size _ _ F); assert (Mf := ope_memory _ _ F); assert (Sd := ope_size _ _ D); assert (Cf := ope_cases _ _ F); assert (Cd := ope_cases _ _ D);
      assert (Vf : forall v, ivalue q f = Some v -> ivalue q' fa = Some v) by (intros v V; eapply ope_value; eauto);
      assert (Af : forall v, iaddress lab frame q f = Some v -> iaddress lab frame q' fa = Some v) by (intros v V; eapply ope_address; eauto); assert (Dd := fun a => Dst d da a eq_refl D) end.
    destruct t; try (destruct d; exact I); try (destruct d; destruct f; exact I).
    + (* LOAD *) cbn [istep]. rewrite Mf, Sd. destruct (is_memory f).
      * destruct (operand_size d) as [s |]; [| exact I]. destruct (iaddress lab frame q f) as [a |] eqn:Ea; [| exact I]. rewrite (Af _ eq_refl), Pw. destruct (load _ s a); [apply Go | exact I].
      * destruct (ivalue q f) as [v |] eqn:Ev; [| exact I]. rewrite (Vf _ eq_refl). apply Go.
    + (* ADDR *) cbn [istep]. destruct (iaddress lab frame q f) as [a |] eqn:Ea; [| exact I]. rewrite (Af _ eq_refl). apply Go.
    + (* STR *) destruct f; try (destruct d; exact I). subst fa. cbn [istep]. destruct (iaddress lab frame q d) as [a |] eqn:Ea; [| exact I]. destruct (Dd _ eq_refl) as [E W]. rewrite E, W, Pw. destruct (put_chars _ a _); [apply along_world; exact P | exact I].
    + (* STORE *) cbn [istep]. rewrite Sf. destruct (iaddress lab frame q d) as [a |] eqn:Ea; [| exact I]. destruct (Dd _ eq_refl) as [E W]. rewrite E, W, Pw. destruct (operand_size f) as [s |]; [| exact I]. destruct (ivalue q f) as [v |] eqn:Ev; [| exact I]. rewrite (Vf _ eq_refl). destruct (store _ s a v); [apply along_world; exact P | exact I].
    + (* LDARG *) destruct f as [s r | | | | | |]; try (destruct d; exact I). subst fa. cbn [istep]. destruct (iaddress lab frame q d) as [a |] eqn:Ea; [| exact I]. destruct (Dd _ eq_refl) as [E W]. rewrite E, W, Pw. destruct (suffix_size s) as [z |]; [| exact I]. destruct (nth_error params _) as [[s' x] |]; [| exact I]. destruct (_ && _); [| exact I]. destruct (store _ z a x); [apply along_world; exact P | exact I].
    + (* STARG *) destruct d as [s r | | | | | |]; try exact I. subst da. cbn [istep writes]. rewrite Sf, Pa. destruct (operand_size f) as [z |]; [| exact I]. destruct (ivalue q f) as [v |] eqn:Ev; [| exact I]. rewrite (Vf _ eq_refl). destruct (i_args q); [exact I | apply along_args; exact P].
    + (* NEG *) cbn [istep]. destruct (ivalue q f) as [v |] eqn:Ev; [| exact I]. rewrite (Vf _ eq_refl). destruct (unop_spec _ v); [apply Go | exact I].
    + (* NOT *) cbn [istep]. destruct (ivalue q f) as [v |] eqn:Ev; [| exact I]. rewrite (Vf _ eq_refl). destruct (unop_spec _ v); [apply Go | exact I].
  - destruct t; try exact I; destruct d; exact I.
  - (* a jump *)
    destruct t; try exact I; destruct d; try exact I. match goal with D : ope_alloc _ _ |- _ => apply ope_cases in D; subst da end. cbn [istep writes]. apply along_goto.
  - (* a call without result *)
    match goal with F : ope_alloc f _, G : ope_alloc g _ |- _ => assert (Ag := ope_cases _ _ G);
      assert (Af : forall v, iaddress lab frame q f = Some v -> iaddress lab frame q' fa = Some v) by (intros v V; eapply ope_address; eauto) end.
    destruct t; try exact I. destruct g; try exact I. subst ga. cbn [istep writes]. destruct (iaddress lab frame q f) as [a |] eqn:Ea; [| exact I]. rewrite (Af _ eq_refl), Pa, Pw. destruct (i_args q) as [| sl r] eqn:Er; [exact I |]. destruct (collect_args sl _ 0); [| exact I]. destruct (call a l (i_world q)) as [[x W] | | | |]; try exact I.
    apply along_world. exact P.
  - (* one *)
    match goal with F : ope_alloc f _ |- _ => assert (Sf := ope_size _ _ F);
      assert (Vf : forall v, ivalue q f = Some v -> ivalue q' fa = Some v) by (intros v V; eapply ope_value; eauto) end.
    destruct t; try exact I; cbn [istep writes].
    + rewrite Sf. destruct (operand_size f) as [z |]; [| exact I]. destruct (ivalue q f) as [v |] eqn:Ev; [| exact I]. rewrite (Vf _ eq_refl). apply along_ret. exact P.
    + apply along_same. exact P.
    + eexists. split; [reflexivity | exact P].
    + rewrite Pa. apply along_args. exact P.
    + rewrite Pa. destruct (i_args q); [exact I | apply along_args; exact P].
Qed.
End Step.
