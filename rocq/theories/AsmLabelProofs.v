(** C29: the labels and jumps of the assembly code are those of the intermediate code *)
From Verif Require Import Base ElabProofs ElabProofs2 DtypeModel ImmcModel ImmcgenModel RegallocModel X64Model X64genModel LabelSpec LabelProofs AsmLabelSpec RegSpec RegProofs6 CallSpec CallProofs CallProofs2 CallProofs3 CallProofs4 FrontModel NameProofs.
Local Open Scope Z_scope.
#[local] Arguments moves : simpl never.

Definition label_kind (t : labeltype) : X64Model.xlabel :=
  match t with IMMC_LABEL_FUNCTION => X64_LABEL_FUNCTION | IMMC_LABEL_VARIABLE => X64_LABEL_VARIABLE | IMMC_LABEL_NORMAL => X64_LABEL_NORMAL end.
(** [xs] is code of [c] *)
Definition silent (c : immc) (x : x64) : Prop :=
  xlabel x = [] /\ forall t s d, x = X64_INST t s d -> is_jump t = true -> exists l, d = Some (X64_OPERAND_JLABEL l) /\ target_of c = [l].
Definition piece (c : immc) (xs : list x64) : Prop :=
  match c with IMMC_LABEL t _ n => exists v, xs = [X64_LABEL (label_kind t) v n] | _ => Forall (silent c) xs end.
Definition mute (x : x64) : Prop := xlabel x = [] /\ forall t s d, x = X64_INST t s d -> is_jump t = false.
Inductive spelled : list immc -> list x64 -> Prop :=
| sp_nil : spelled [] []
| sp_piece c xs cs X : piece c xs -> spelled cs X -> spelled (c :: cs) (xs ++ X)
| sp_extra xs cs X : Forall mute xs -> spelled cs X -> spelled cs (xs ++ X).

Lemma spelled_app a X b Y : spelled a X -> spelled b Y -> spelled (a ++ b) (X ++ Y).
Proof. induction 1; intros H'; cbn [app]; rewrite <- ?app_assoc; auto; constructor; auto. Qed.
Lemma spelled_split a : forall b X, spelled (a ++ b) X -> exists Xa Xb, X = Xa ++ Xb /\ spelled a Xa /\ spelled b Xb.
Proof.
  intros b X H. remember (a ++ b) as l eqn:E. revert a E. induction H as [| c xs cs X P H IH | xs cs X M H IH]; intros a E.
  - destruct a; [| discriminate E]. destruct b; [| discriminate E]. exists [], []. repeat constructor.
  - destruct a as [| c' a]; cbn [app] in E.
    + subst b. exists [], (xs ++ X). repeat constructor; auto.
    + injection E as <- E. destruct (IH _ E) as (Xa & Xb & -> & A & B). exists (xs ++ Xa), Xb. rewrite <- app_assoc. splits; [reflexivity | now constructor | exact B].
  - destruct (IH _ E) as (Xa & Xb & -> & A & B). exists (xs ++ Xa), Xb. rewrite <- app_assoc. splits; [reflexivity | now apply sp_extra | exact B].
Qed.
Lemma mute_labels xs : Forall mute xs -> x64_labels xs = [].
Proof. induction 1 as [| x xs [M _] F IH]; [reflexivity |]. change (x64_label_of x ++ x64_labels xs = []). rewrite IH, app_nil_r. exact M. Qed.
Lemma piece_labels c xs : piece c xs -> x64_labels xs = label_of c.
Proof.
  destruct c as [t d f g | | | t v n]; cbn [piece label_of]; intros P; [| | | destruct P as [v' ->]; reflexivity].
  all: induction P as [| x xs [M _] F IH]; [reflexivity |]; change (x64_label_of x ++ x64_labels xs = []); rewrite IH, app_nil_r; exact M.
Qed.
Lemma labels_joined a b : x64_labels (a ++ b) = x64_labels a ++ x64_labels b.
Proof. apply flat_map_app. Qed.
Lemma spelled_labels cs X : spelled cs X -> x64_labels X = labels cs.
Proof.
  induction 1 as [| c xs cs X P H IH | xs cs X M H IH]; [reflexivity | |]; rewrite labels_joined, IH; [rewrite (piece_labels _ _ P); reflexivity | now rewrite (mute_labels _ M)].
Qed.
Lemma spelled_at cs X : spelled cs X -> forall X1 t s d X2, X = X1 ++ X64_INST t s d :: X2 -> is_jump t = true ->
  exists c1 c c2 Xa p q Xb l, cs = c1 ++ c :: c2 /\ X1 = Xa ++ p /\ X2 = q ++ Xb /\ spelled c1 Xa /\ spelled c2 Xb
    /\ label_of c = [] /\ Forall (silent c) p /\ Forall (silent c) q /\ d = Some (X64_OPERAND_JLABEL l) /\ target_of c = [l].
Proof.
  assert (K : forall (xs X X1 X2 : list x64) j, xs ++ X = X1 ++ j :: X2 -> (exists q, xs = X1 ++ j :: q /\ X2 = q ++ X) \/ (exists p, X1 = xs ++ p /\ X = p ++ j :: X2)).
  { induction xs as [| x xs IH]; intros Y X1 X2 j E; [right; exists X1; auto |]. destruct X1 as [| y X1]; cbn [app] in E.
    - injection E as -> <-. left. exists xs. auto.
    - injection E as <- E. destruct (IH _ _ _ _ E) as [(q & -> & ->) | (p & -> & ->)]; [left; exists q; auto | right; exists p; auto]. }
  induction 1 as [| c xs cs X P H IH | xs cs X M H IH]; intros X1 t s d X2 E J.
  - destruct X1; discriminate E.
  - destruct (K _ _ _ _ _ E) as [(q & -> & ->) | (p & -> & ->)].
    + assert (S : label_of c = [] /\ Forall (silent c) (X1 ++ X64_INST t s d :: q)).
      { destruct c as [| | | t' v n]; [auto.. |]. destruct P as [v' P]. destruct X1 as [| x [|]]; discriminate P. }
      destruct S as [LB S]. apply Forall_app in S as [S1 S2]. inversion S2 as [| ? ? [_ S3] S4]; subst. destruct (S3 _ _ _ eq_refl J) as (l & -> & T).
      exists [], c, cs, [], X1, q, X, l. splits; auto. constructor.
    + destruct (IH _ _ _ _ _ eq_refl J) as (c1 & c' & c2 & Xa & p' & q & Xb & l & -> & -> & -> & S1 & S2 & R). exists (c :: c1), c', c2, (xs ++ Xa), p', q, Xb, l. rewrite <- app_assoc. splits; try reflexivity; try apply R; auto. now constructor.
  - destruct (K _ _ _ _ _ E) as [(q & -> & ->) | (p & -> & ->)].
    + apply Forall_app in M as [_ M]. inversion M as [| ? ? [_ M1] _]; subst. rewrite (M1 _ _ _ eq_refl) in J. discriminate J.
    + destruct (IH _ _ _ _ _ eq_refl J) as (c1 & c' & c2 & Xa & p' & q & Xb & l & -> & -> & -> & S1 & S2 & R). exists c1, c', c2, (xs ++ Xa), p', q, Xb, l. rewrite <- app_assoc. splits; try reflexivity; try apply R; auto. now apply sp_extra.
Qed.
Lemma spelled_cons c b X : spelled (c :: b) X -> exists E xs Xb, X = E ++ xs ++ Xb /\ Forall mute E /\ piece c xs /\ spelled b Xb.
Proof.
  intros H. remember (c :: b) as l eqn:E. induction H as [| c' xs cs X P H IH | xs cs X M H IH]; [discriminate E | |].
  - injection E as -> ->. exists [], xs, X. splits; auto.
  - destruct (IH E) as (E0 & ys & Xb & -> & M' & P & S). exists (xs ++ E0), ys, Xb. rewrite <- app_assoc. splits; auto. now apply Forall_app.
Qed.
Lemma entry_label x : x64_entry x -> exists n, xlabel x = [n].
Proof. intros (v & n & [-> | ->]); eexists; reflexivity. Qed.
Lemma spelled_inside cs X : spelled cs X -> (forall c, In c cs -> ~ entry c) -> forall x, In x X -> ~ x64_entry x.
Proof.
  induction 1 as [| c xs cs X P H IH | xs cs X M H IH]; intros N x I J; [destruct I | |]; apply in_app_iff in I as [I | I].
  - destruct c as [t d f g | | | t v n].
    1-3: cbn [piece] in P; rewrite Forall_forall in P; destruct (P _ I) as [L0 _]; destruct (entry_label _ J) as [m M]; rewrite M in L0; discriminate L0.
    destruct P as [v' ->]. destruct I as [<- | []]. apply (N _ (or_introl eq_refl)). destruct J as (v1 & n1 & [J | J]); injection J as J1 -> ->; exists v, n1; destruct t; try discriminate J1; auto.
  - revert J. apply IH; [| exact I]. intros c' I'. apply N. now right.
  - rewrite Forall_forall in M. destruct (M _ I) as [L0 _]. destruct (entry_label _ J) as [m Q]. rewrite Q in L0. discriminate L0.
  - revert J. now apply IH.
Qed.
Lemma silent_inside c xs : Forall (silent c) xs -> x64_labels xs = [] /\ forall x, In x xs -> ~ x64_entry x.
Proof.
  intros F. split.
  - induction F as [| x xs [M _] F IH]; [reflexivity |]. change (x64_label_of x ++ x64_labels xs = []). rewrite IH, app_nil_r. exact M.
  - intros x I J. rewrite Forall_forall in F. destruct (F _ I) as [L0 _]. destruct (entry_label _ J) as [m Q]. rewrite Q in L0. discriminate L0.
Qed.
Lemma target_jump c l : target_of c = [l] -> jump c (Some (IMMC_OPERAND_LABEL l)).
Proof.
  destruct c as [t d f g | | |]; try discriminate. destruct t; try discriminate; destruct d as [[] |]; try discriminate; intros E; injection E as ->; do 3 eexists; (split; [| reflexivity]); cbn; tauto.
Qed.
Theorem spelled_resolved cs X : spelled cs X -> jumps_resolved cs -> x64_jumps_resolved X.
Proof.
  intros S R X1 t s d X2 E J. assert (J' : is_jump t = true) by (cbn in J; repeat (destruct J as [<- | J]; [reflexivity |]); destruct J).
  destruct (spelled_at _ _ S _ _ _ _ _ E J') as (c1 & c & c2 & Xa & p & q & Xb & l & -> & -> & -> & S1 & S2 & LB & P & Q & -> & T).
  destruct (R c1 c c2 _ eq_refl (target_jump _ _ T)) as (before & e & b1 & b2 & after & l' & -> & -> & EN & N & TG & IL). injection TG as <-.
  apply spelled_split in S1 as (Y1 & Y2 & -> & S1 & S1'). apply spelled_cons in S1' as (E0 & xs & Y3 & -> & M & PE & S1').
  apply spelled_split in S2 as (Y4 & Y5 & -> & S2 & S2').
  assert (EX : exists x, xs = [x] /\ x64_entry x). { destruct EN as (v & n & [-> | ->]); destruct PE as [v' ->]; eexists; (split; [reflexivity |]); exists v', n; cbn; auto. }
  destruct EX as (x & -> & EX). destruct (silent_inside _ _ P) as [P1 P2], (silent_inside _ _ Q) as [Q1 Q2].
  exists (Y1 ++ E0), x, (Y3 ++ p), (q ++ Y4), Y5, l. splits; auto.
  - rewrite <- !app_assoc. reflexivity.
  - rewrite <- app_assoc. reflexivity.
  - intros y I. rewrite !in_app_iff in I. destruct I as [[I | I] | [I | I]]; auto.
    + revert y I. apply (spelled_inside _ _ S1'). intros c' I'. apply N, in_app_iff. now left.
    + revert y I. apply (spelled_inside _ _ S2). intros c' I'. apply N, in_app_iff. now right.
  - rewrite !labels_joined, P1, Q1, (spelled_labels _ _ S1'), (spelled_labels _ _ S2), app_nil_r. cbn [app]. unfold labels in *. now rewrite <- flat_map_app.
Qed.

(** * The code generator *)
Lemma chunk_piece A t d f g cs : chunk A (IMMC_INST t d f g) cs -> piece (IMMC_INST t d f g) cs.
Proof.
  intros [_ LB JM _ _ _ _ AM]. cbn [piece]. specialize (LB 0). specialize (JM 0). cbn [dlabels djumps label_of List.map app] in LB, JM. rewrite app_nil_r in JM.
  assert (G : forall cs n, Forall aimed cs -> xlabels n cs = [] -> (forall l m, In (l, m) (xjumps n cs) -> target_of (IMMC_INST t d f g) = [l]) -> Forall (silent (IMMC_INST t d f g)) cs).
  { clear. induction cs as [| x cs IH]; intros n F LB JM; constructor; inversion F as [| ? ? A F']; subst; cbn [xlabels xjumps] in LB, JM; apply app_eq_nil in LB as [L1 L2].
    - split; [destruct (xlabel x); [reflexivity | discriminate L1] |]. intros t' s' d' -> J. destruct (A J) as [l ->]. exists l. split; [reflexivity |]. apply (JM l n), in_app_iff. left. cbn [xtarget]. rewrite J. now left.
    - eapply IH; [exact F' | exact L2 |]. intros l m I. apply (JM l m), in_app_iff. now right. }
  apply (G _ 0 AM LB). rewrite JM. intros l m I. apply in_map_iff in I as (l' & Q & I). injection Q as -> _.
  destruct t; try destruct I; destruct d as [[] |]; try destruct I; try contradiction; subst; reflexivity.
Qed.
Lemma inst_piece t d f g st cs st' : 0 <= x_evac st -> gen_inst_x64code (IMMC_INST t d f g) st = Ok (cs, st') -> piece (IMMC_INST t d f g) cs /\ 0 <= x_evac st'.
Proof.
  intros P H. assert (D : ordinary (IMMC_INST t d f g) \/ t = IMMC_INST_ENTER \/ t = IMMC_INST_LEAVE) by (destruct t; cbn; auto).
  destruct D as [O | [-> | ->]].
  - apply inst_chunk in H as [C E]; auto. split; [eapply chunk_piece, C | lia].
  - cbn [gen_inst_x64code] in H. unfold gen_enter in H. repeat (apply bind_ok in H as (? & _ & H)). injection H as <- <-. split; [| exact P]. cbn [piece]. try destruct (_ >? 0); repeat constructor; intros ? ? ? Q; injection Q as <- _ _; discriminate.
  - cbn [gen_inst_x64code] in H. unfold gen_leave in H. repeat (apply bind_ok in H as (? & _ & H)). injection H as <- <-. split; [| exact P]. cbn [piece]. try destruct (_ >? 0); repeat constructor; intros ? ? ? Q; injection Q as <- _ _; discriminate.
Qed.
Lemma label_piece c st cs st' : gen_label_x64code c st = Ok (cs, st') -> piece c cs /\ x_evac st' = x_evac st.
Proof. destruct c as [| | | t v n]; try discriminate. cbn [gen_label_x64code]. intros H. apply finish_ok in H as [-> E]. split; [| exact E]. eexists. destruct t; reflexivity. Qed.
Lemma data_piece c st cs st' : gen_data_x64code c st = Ok (cs, st') -> piece c cs /\ x_evac st' = x_evac st.
Proof.
  destruct c as [| t i | t s |]; try discriminate; cbn [gen_data_x64code]; intros H.
  - apply bind_ok in H as (t' & _ & H). apply finish_ok in H as [-> E]. split; [| exact E]. repeat constructor; discriminate.
  - destruct t; try discriminate. apply finish_ok in H as [-> E]. split; [| exact E]. repeat constructor; discriminate.
Qed.
Lemma body_spelled : forall l st cs r st', 0 <= x_evac st -> gen_body_x64code l st = Ok (cs, r, st') -> exists l', l = l' ++ r /\ spelled l' cs /\ 0 <= x_evac st'.
Proof.
  induction l as [| c l IH]; intros st cs r st' P H; [discriminate H |].
  assert (G : (cs = [] /\ r = c :: l /\ st' = st) \/ exists c1 st1 ds, piece c c1 /\ 0 <= x_evac st1 /\ gen_body_x64code l st1 = Ok (ds, r, st') /\ cs = c1 ++ ds).
  { destruct c as [t d f g | | | t v n]; try discriminate H.
    - assert (D : t = IMMC_INST_LEAVE \/ (do (cs, st0) <- gen_inst_x64code (IMMC_INST t d f g) st; do (ds, r, st0) <- gen_body_x64code l st0; Ok (cs ++ ds, r, st0)) = Ok (cs, r, st')) by (destruct t; auto).
      destruct D as [-> | D]; [left; cbn in H; injection H as <- <- <-; auto | right].
      apply bind_ok in D as ([c1 st1] & H1 & D). apply bind_ok in D as ([[ds r1] st2] & H2 & D). injection D as <- <- <-. apply inst_piece in H1 as [K1 K2]; [| exact P]. exists c1, st1, ds. auto.
    - right. cbn [gen_body_x64code] in H. apply bind_ok in H as ([c1 st1] & H1 & H). apply bind_ok in H as ([[ds r1] st2] & H2 & H). injection H as <- <- <-. apply label_piece in H1 as [K1 K2]. exists c1, st1, ds. splits; auto. lia. }
  destruct G as [(-> & -> & ->) | (c1 & st1 & ds & K1 & K2 & H2 & ->)]; [exists []; splits; auto; constructor |].
  apply IH in H2 as (l' & -> & S & E); [| exact K2]. exists (c :: l'). splits; auto. now constructor.
Qed.
Lemma function_spelled l st cs r st' : gen_function_x64code l st = Ok (cs, r, st') -> exists l', l = l' ++ r /\ spelled l' cs.
Proof.
  unfold gen_function_x64code. destruct l as [| lab [| enter l]]; try discriminate. intros H. apply bind_ok in H as ([label st1] & H1 & H). apply bind_ok in H as ([head st2] & H2 & H). apply bind_ok in H as ([[body r1] st3] & H3 & H).
  destruct r1 as [| leave r1]; [discriminate H |]. apply bind_ok in H as (regs & _ & H). apply bind_ok in H as ([tail st4] & H4 & H). injection H as <- <- <-.
  apply label_piece in H1 as [L1 E1]. cbn [x_evac] in E1. destruct enter as [t d f g | | |]; try discriminate H2. apply inst_piece in H2 as [P2 E2]; [| lia]. apply body_spelled in H3 as (l' & -> & S & E3); [| exact E2].
  destruct leave as [t' d' f' g' | | |]; try discriminate H4. apply inst_piece in H4 as [P4 E4]; [| exact E3].
  assert (PU : Forall mute (List.map (fun r => X64_INST X64_INST_PUSHX (Some (X64_OPERAND_REG X64_SUFFIX_QUAD r)) None) regs)) by (apply Forall_forall; intros x I; apply in_map_iff in I as (q & <- & _); split; [reflexivity | intros ? ? ? Q; injection Q as <- _ _; reflexivity]).
  assert (PO : Forall mute (List.map (fun r => X64_INST X64_INST_POPX None (Some (X64_OPERAND_REG X64_SUFFIX_QUAD r))) (rev regs))) by (apply Forall_forall; intros x I; apply in_map_iff in I as (q & <- & _); split; [reflexivity | intros ? ? ? Q; injection Q as <- _ _; reflexivity]).
  exists (lab :: IMMC_INST t d f g :: l' ++ [IMMC_INST t' d' f' g']). split; [cbn; now rewrite <- app_assoc |].
  rewrite <- !app_assoc. apply (sp_piece lab label); [exact L1 |]. apply (sp_piece _ head); [exact P2 |]. apply sp_extra; [exact PU |]. apply sp_extra.
  { destruct (_ =? 1); repeat constructor. intros ? ? ? Q; injection Q as <- _ _; reflexivity. }
  apply spelled_app; [exact S |]. apply sp_extra. { destruct (_ =? 1); repeat constructor. intros ? ? ? Q; injection Q as <- _ _; reflexivity. }
  apply sp_extra; [exact PO |]. rewrite <- (app_nil_r tail). apply sp_piece; [exact P4 | constructor].
Qed.
Lemma datas_spelled : forall l st cs r st', gen_datas_x64code l st = Ok (cs, r, st') -> exists l', l = l' ++ r /\ spelled l' cs.
Proof.
  induction l as [| c l IH]; intros st cs r st' H; cbn [gen_datas_x64code] in H; [injection H as <- <- <-; exists []; split; [reflexivity | constructor] |].
  destruct (is_external_label c); [injection H as <- <- <-; exists []; split; [reflexivity | constructor] |].
  assert (D : (do (cs, st) <- gen_data_x64code c st; do (ds, r, st) <- gen_datas_x64code l st; Ok (cs ++ ds, r, st)) = Ok (cs, r, st')) by (destruct c; try discriminate H; exact H).
  apply bind_ok in D as ([c1 st1] & H1 & D). apply bind_ok in D as ([[ds r1] st2] & H2 & D). injection D as <- <- <-. apply data_piece in H1 as [K _]. apply IH in H2 as (l' & -> & S). exists (c :: l'). split; [reflexivity | now constructor].
Qed.
Lemma variable_spelled l st cs r st' : gen_variable_x64code l st = Ok (cs, r, st') -> exists l', l = l' ++ r /\ spelled l' cs.
Proof.
  unfold gen_variable_x64code. destruct l as [| lab l]; [discriminate |]. intros H. apply bind_ok in H as ([label st1] & H1 & H). apply bind_ok in H as ([[ds r1] st2] & H2 & H). injection H as <- <- <-.
  apply label_piece in H1 as [L1 _]. apply datas_spelled in H2 as (l' & -> & S). exists (lab :: l'). split; [reflexivity | now constructor].
Qed.
Lemma externals_spelled : forall f l st X, gen_externals_x64code f l st = Ok X -> spelled l X.
Proof.
  induction f as [| f IH]; intros l st X H; [discriminate H |]. cbn [gen_externals_x64code] in H. destruct l as [| c l]; [injection H as <-; constructor |]. destruct c as [| | | t v n]; try discriminate H.
  apply bind_ok in H as ([[cs r] st1] & H1 & H). apply bind_ok in H as (ds & H2 & H). injection H as <-. apply IH in H2.
  assert (G : exists l', IMMC_LABEL t v n :: l = l' ++ r /\ spelled l' cs) by (destruct t; [eapply function_spelled, H1 | eapply variable_spelled, H1 | discriminate H1]).
  destruct G as (l' & -> & S). now apply spelled_app.
Qed.
Lemma piece_alike c c' xs : alike c c' -> piece c' xs -> piece c xs.
Proof.
  intros A. destruct (alike_facts _ _ A) as (_ & LB & T & _). destruct A as [-> | [al A]]; [auto |].
  destruct c as [t d f g | t i | t s | t v n]; cbn [alloc_immc] in A; try (injection A as <-; auto).
  apply bind_ok in A as (f' & _ & A). apply bind_ok in A as (g' & _ & A). apply bind_ok in A as (d' & _ & A). injection A as <-.
  cbn [piece]. apply Forall_impl. intros x [X1 X2]. split; [exact X1 |]. intros t0 s0 d0 E J. destruct (X2 _ _ _ E J) as (l & -> & Q). exists l. split; [reflexivity | congruence].
Qed.
Lemma spelled_alike cs' X : spelled cs' X -> forall cs, Forall2 alike cs cs' -> spelled cs X.
Proof.
  induction 1 as [| c xs cs' X P H IH | xs cs' X M H IH]; intros cs F.
  - inversion F; subst. constructor.
  - inversion F; subst. constructor; [eapply piece_alike; eassumption | auto].
  - constructor; auto.
Qed.
Theorem source_assembly_labels src s cs n code lives X : front src = Ok s -> immcgen s = Ok cs -> allocate_regs n cs = Ok (code, lives) -> x64gen code lives = Ok X ->
  NoDup (x64_labels X) /\ x64_jumps_resolved X.
Proof.
  intros F G A H. destruct (source_labels _ _ _ F G) as [ND JR]. apply externals_spelled in H. apply regs_alike in A. eapply spelled_alike in H; [| exact A].
  split; [now rewrite (spelled_labels _ _ H) | eapply spelled_resolved; eassumption].
Qed.
