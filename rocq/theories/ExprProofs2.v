(** The code of an expression computes its value *)
From Verif Require Import Base SrtModel ImmcModel ImmcgenModel X64Isa X64Decode OpSpec TypeSpec TypeProofs CSem ImmcSem GenSpec ElabProofs GenProofs IsaProofs LabelSpec ExprProofs.
Open Scope Z_scope.

Definition places_ok (P : places) : Prop :=
  (forall n a, p_label P n = Some a -> 0 <= a < 2 ^ 64) /\ (forall i, p_string P i = p_label P (create_sliteral_label i)).

Section Sim.
Variables (call : caller) (P : places) (params : list (size * Z)) (C : list immc).
Hypothesis NL : NoDup (labels C).
Hypothesis PP : places_ok P.
Notation go := (reaches call (p_label P) (p_frame P) params C).
Notation step := (istep call (p_label P) (p_frame P) params).
Notation at_ := (code_at C).
Notation ev := (eval call P).

Lemma pow64 : 2 ^ 64 = 18446744073709551616.
Proof. reflexivity. Qed.

(** * Values are in the range of their type *)
Lemma var_address_range Sc n a : var_address P Sc n = Ok a -> 0 <= a < 2 ^ 64.
Proof.
  unfold var_address. destruct (sym_search _ _) as [[[| off | i] d] |]; try discriminate.
  - destruct (p_label P n) eqn:E; intros H; [| discriminate H]. injection H as <-. exact (proj1 PP _ _ E).
  - intros H. injection H as <-. apply (low_range S8).
Qed.
Lemma load_as_range d a W v u s : load_as d a W = Ok v -> kind d = Some (u, s) -> in_range u s v = true.
Proof.
  unfold load_as. intros H K. rewrite K in H. destruct (load _ _ _); [| discriminate H]. injection H as <-. apply interp_in_range.
Qed.
Lemma step_by_range d v up v' u s : step_by d v up = Ok v' -> kind d = Some (u, s) -> in_range u s v' = true.
Proof.
  intros H K. unfold step_by in H. destruct d; try discriminate K;
  try (eapply (fit_low _ u s); [exact K | exact H]).
  - eapply (convert_low _ u s); [exact K | exact H].
  - apply advance_ok in H as (_ & H & _). injection K as <- <-. unfold in_range. cbn in *. lia.
Qed.
Lemma check_ok b : check b = Ok tt -> b = true.
Proof. now destruct b. Qed.
Ltac einv H :=
  repeat match type of H with
  | bind (check ?b) _ = Ok _ =>
      let Z := fresh "Z" in destruct b eqn:Z; cbn [check bind] in H; [| discriminate H]
  | bind _ _ = Ok _ => let x := fresh "x" in let M := fresh "V" in apply bind_ok in H as (x & M & H); cbv beta in H
  | (let 'pair _ _ := ?x in _) = _ => is_var x; destruct x
  end; cbv beta iota in H.

Lemma arith_range t d x y v u s : arith t d x y = Ok v -> kind d = Some (u, s) -> in_range u s v = true.
Proof.
  intros H K. unfold arith in H. destruct t; try discriminate H;
  repeat match type of H with
  | (if ?b then _ else _) = Ok _ => destruct b; try discriminate H
  | bind _ _ = Ok _ => apply bind_ok in H as (? & _ & H)
  end; eapply fit_low; eassumption.
Qed.
Lemma in_range_bool b : in_range false S4 (truth b) = true.
Proof. now destruct b. Qed.
Lemma eval_range : forall e Sc W v W' d u s, ev Sc e W = Ok (v, W') -> srt_dtype e = Some d -> kind d = Some (u, s) -> in_range u s v = true.
Proof.
  fix IH 1. intros [t od p cs] Sc W v W' d u s H E K. cbn in E. subst od.
  destruct t; cbn [eval] in H; try discriminate H.
  (* comparisons and logical operators *)
  all: try (destruct d; try discriminate H; injection K as <- <-;
    repeat match type of H with
    | match ?l with [] => _ | _ :: _ => _ end = _ => destruct l; try discriminate H
    | bind _ _ = Ok _ => progress einv H
    | (if ?b then _ else _) = Ok _ => destruct b; try discriminate H
    | match ?o with Some _ => _ | None => _ end = Ok _ => destruct o; try discriminate H
    end; injection H as <- <-; solve [apply in_range_bool | reflexivity]).
  all: try (repeat match type of H with
    | match ?l with [] => _ | _ :: _ => _ end = _ => destruct l; try discriminate H
    end; einv H; injection H as <- <-;
    solve [ eapply load_as_range; eassumption | eapply step_by_range; eassumption | eapply arith_range; eassumption
          | eapply (proj2 (fit_low _ _ _ _ _ K ltac:(eassumption))) | eapply (proj2 (convert_low _ _ _ _ _ K ltac:(eassumption))) ]).
  - (* = *) destruct cs as [| a [| b [| ? ?]]]; try discriminate H. einv H. injection H as <- <-.
    apply andb_prop in Z as [Z _]. apply alike_kind in Z as (e & u' & s' & E & K1 & K2 & _). rewrite K in K1. injection K1 as <- <-.
    eapply IH; eassumption.
  - (* ?: *) destruct cs as [| c [| a [| b [| ? ?]]]]; try discriminate H. einv H. apply andb_prop in Z as [Z _]. apply andb_prop in Z as [Za Zb].
    apply alike_kind in Za as (da & u' & s' & Ea & K1 & Ka & _). apply alike_kind in Zb as (db & u2 & s2 & Eb & K2 & Kb & _).
    rewrite K in K1, K2. injection K1 as <- <-. injection K2 as <- <-.
    destruct (z =? 0); [eapply (IH b) | eapply (IH a)]; eassumption.
  - destruct cs as [| a [| b [| ? ?]]]; try discriminate H. einv H. injection H as <- <-. apply andb_prop in Z as [Z _]. apply andb_prop in Z as [_ Z].
    rewrite (pointer_kind _ Z) in K. injection K as <- <-. apply advance_ok in V2 as (_ & V2 & _). unfold in_range. cbn in *. lia.
  - destruct cs as [| a [| b [| ? ?]]]; try discriminate H. einv H. injection H as <- <-. apply andb_prop in Z as [Z _]. apply andb_prop in Z as [_ Z].
    rewrite (pointer_kind _ Z) in K. injection K as <- <-. apply advance_ok in V2 as (_ & V2 & _). unfold in_range. cbn in *. lia.
  - destruct cs as [| a [| b [| ? ?]]]; try discriminate H. einv H. rewrite K in H. destruct (_ && _) eqn:R in H; [| discriminate H]. injection H as <- <-.
    now apply andb_prop in R as [_ R].
  - destruct d; try discriminate H. injection K as <- <-. assert (A : 0 <= v < 2 ^ 64).
    { destruct cs as [| c [| ? ?]]; try discriminate H. destruct c as [ct cd cp cc]. destruct ct; try discriminate H.
      - destruct cc as [| p1 [| ? ?]]; try discriminate H. einv H. destruct (srt_dtype p1) as [d1 |] eqn:E1; [| discriminate Z].
        assert (R := IH _ _ _ _ _ _ _ _ H E1 (pointer_kind _ Z)). unfold in_range in R. cbn in *. lia.
      - destruct cc as [| p1 [| [? ? [] ?] [| ? ?]]]; try discriminate H. einv H. injection H as <- <-. apply advance_ok in V1 as (_ & V1 & _). exact V1.
      - destruct cp; try discriminate H. einv H. injection H as <- <-. eapply var_address_range; eassumption.
      - destruct cp; try discriminate H. match type of H with context [p_string P ?i] => destruct (p_string P i) eqn:Es end; [| discriminate H]. injection H as <- <-. rewrite (proj2 PP) in Es. exact (proj1 PP _ _ Es). }
    unfold in_range. cbn in *. lia.
  - destruct cs as [| a [| ? ?]]; try discriminate H. einv H. apply andb_prop in Z as [Z _]. apply alike_kind in Z as (e & u' & s' & E & K1 & K2 & _).
    rewrite K in K1. injection K1 as <- <-. eapply IH; eassumption.
  - destruct cs as [| f [| [ct cd cp args] [| ? ?]]]; try discriminate H; try (destruct ct; discriminate H). destruct ct; try discriminate H. einv H. injection H as <- <-. eapply (proj2 (convert_low _ _ _ _ _ K ltac:(eassumption))).
  - destruct cs as [| p1 [| [? ? [] ?] [| ? ?]]]; try discriminate H. einv H. injection H as <- <-. eapply load_as_range; eassumption.
  - destruct p; try discriminate H. einv H. injection H as <- <-. eapply load_as_range; eassumption.
  - destruct p; try discriminate H. rewrite K in H. einv H. injection H as <- <-. now apply andb_prop in Z as [_ Z].
Qed.

(** * Running a piece of code *)
(** from its first instruction to behind its last one, ending in [W]; registers up to [n] keep their values *)
Definition runs_to (p : nat) (cs : list immc) (q q' : istate) (n : Z) (W' : world) : Prop :=
  go p q (p + length cs)%nat q' /\ i_world q' = W' /\ keep n q q'.
Lemma runs_nil p q n W : i_world q = W -> runs_to p [] q q n W.
Proof. intros H. split; [cbn; rewrite Nat.add_0_r; apply go_refl | split; [exact H | apply keep_refl]]. Qed.
Lemma runs_app p a b q q1 q2 n m W1 W2 :
  runs_to p a q q1 n W1 -> runs_to (p + length a) b q1 q2 m W2 -> n <= m -> runs_to p (a ++ b) q q2 n W2.
Proof.
  intros (A1 & A2 & A3) (B1 & B2 & B3) L. split; [| split].
  - rewrite app_length, Nat.add_assoc. eapply go_trans; eassumption.
  - exact B2.
  - eapply keep_trans; eassumption.
Qed.
Lemma runs_step p c q q' n W' : at_ p [c] -> step c q = INext q' -> i_world q' = W' -> keep n q q' -> runs_to p [c] q q' n W'.
Proof. intros A S Ww K. split; [| split; assumption]. cbn. rewrite Nat.add_1_r. eapply go_next; eassumption. Qed.
Lemma runs_le p cs q q' n m W : runs_to p cs q q' m W -> n <= m -> runs_to p cs q q' n W.
Proof. intros (A & B & D) L. split; [exact A | split; [exact B |]]. eapply keep_le; eassumption. Qed.

(** the scopes of the generator are those of the semantics *)
Definition env (Sc : scopes) (st : gst) : Prop := s_syms Sc = g_syms st /\ s_tags Sc = g_tags st.
Lemma env_stable Sc st st' : env Sc st -> stable st st' -> env Sc st'.
Proof. intros [A B] [C1 C2 _ _ _ _ _ _ _ _]. split; congruence. Qed.

(** the code of [e] was run, with value [v], which is in the register noted in the state *)
Definition concl (e : srt) (st st' : gst) (p : nat) (cs : list immc) (q : istate) (W' : world) (v : Z) : Prop :=
  exists q', runs_to p cs q q' (g_next st) W' /\
    forall d u s, srt_dtype e = Some d -> kind d = Some (u, s) ->
      exists r, g_reg st' = Some r /\ g_next st < reg_id r <= g_next st' /\ in_reg q' d v (g_suffix st') r
        /\ (computed_last e = true -> reg_id r = g_next st').
Definition simulated (g : option dtype -> srt -> gst -> gres) : Prop :=
  forall e st cs st' Sc W v W' q p,
    g None e st = Ok (cs, st') -> regular e = true -> env Sc st -> ev Sc e W = Ok (v, W') -> at_ p cs -> i_world q = W ->
    concl e st st' p cs q W' v.

(** * Casts *)
Lemma eval_literal Sc e W v W' : ev Sc e W = Ok (v, W') -> srt_is e SRT_ILITERAL_EXPR = true ->
  exists l, srt_iliteral e = Ok l /\ v = lit_value l /\ W' = W.
Proof.
  destruct e as [t d p cs]. cbn [srt_is srt_type]. intros H T. destruct t; try discriminate T. cbn [eval] in H.
  destruct d as [d |]; [| discriminate H]. destruct p; try discriminate H. destruct (kind d) as [[u s] |]; [| discriminate H].
  einv H. injection H as <- <-. eexists. splits; reflexivity.
Qed.
Lemma inner_casts_value : forall e d u s Sc W v W' e0,
  inner_casts d e = true -> kind d = Some (u, s) -> strip_casts e = Ok e0 -> ev Sc e W = Ok (v, W') ->
  exists v0 d0 u0 s0, ev Sc e0 W = Ok (v0, W') /\ srt_dtype e0 = Some d0 /\ kind d0 = Some (u0, s0) /\ low s v = low s v0 /\ srt_is e0 SRT_CAST_EXPR = false.
Proof.
  fix IH 1. intros [t od p cs] d u s Sc W v W' e0 I K S H. destruct (srttype_beq t SRT_CAST_EXPR) eqn:T.
  - destruct t; try discriminate T. cbn [strip_casts] in S. cbn [eval] in H. destruct od as [t |]; [| discriminate H].
    destruct cs as [| c [| ? ?]]; try discriminate H. einv H. injection H as <- <-. cbn [inner_casts] in I.
    apply andb_prop in I as [I1 I2]. destruct (IH _ _ _ _ _ _ _ _ _ I2 K S V) as (v0 & d0 & u0 & s0 & E0 & D0 & K0 & L0 & N0). clear IH.
    exists v0, d0, u0, s0. splits; auto. rewrite <- L0.
    assert (KT : exists ut st, kind t = Some (ut, st)).
    { apply orb_prop in I1 as [I1 | I1]; [unfold narrower in I1; rewrite K in I1 | destruct (srt_dtype c); [| discriminate I1]; unfold keeps in I1; destruct (kind d1) as [[? ?] |]; [| discriminate I1]];
      destruct (kind t) as [[ut st'] |]; try discriminate I1; eauto. }
    destruct KT as (ut & st' & KT). assert (CV : x = interp ut st' z).
    { unfold convert in V0. destruct t; try discriminate KT; rewrite KT in V0; now injection V0 as <-. }
    subst x. apply orb_prop in I1 as [I1 | I1].
    + unfold narrower in I1. rewrite K, KT in I1. apply low_interp_le. lia.
    + destruct (srt_dtype c) as [dc |] eqn:Dc; [| discriminate I1]. assert (Kc : exists uc sc, kind dc = Some (uc, sc)).
      { unfold keeps in I1. destruct (kind dc) as [[uc sc] |]; [eauto | discriminate I1]. }
      destruct Kc as (uc & sc & Kc). assert (R := eval_range _ _ _ _ _ _ _ _ V Dc Kc).
      rewrite (in_range_interp _ _ _ (keeps_range _ _ _ _ _ _ _ Kc KT I1 R)). reflexivity.
  - assert (Z : scalar (Srt t od p cs) = true) by (destruct t; try exact I; discriminate T).
    assert (S' : e0 = Srt t od p cs) by (destruct t; cbn [strip_casts] in S; try (now injection S as <-); discriminate T).
    subst e0. unfold scalar in Z. destruct (srt_dtype (Srt t od p cs)) as [d0 |] eqn:D; [| discriminate Z].
    destruct (kind d0) as [[u0 s0] |] eqn:K0; [| discriminate Z]. clear IH. exists v, d0, u0, s0. splits; auto; exact T.
Qed.
Lemma cast_value e d u s Sc W v W' e0 :
  regular e = true -> srt_is e SRT_CAST_EXPR = true -> srt_dtype e = Some d -> kind d = Some (u, s) -> strip_casts e = Ok e0 -> ev Sc e W = Ok (v, W') ->
  exists v0 d0 u0 s0, ev Sc e0 W = Ok (v0, W') /\ srt_dtype e0 = Some d0 /\ kind d0 = Some (u0, s0) /\ low s v = low s v0 /\ srt_is e0 SRT_CAST_EXPR = false.
Proof.
  destruct e as [t od p cs]. cbn [srt_is srt_type srt_dtype]. intros R T -> K S H. destruct t; try discriminate T.
  cbn [eval strip_casts] in H, S. destruct cs as [| c [| ? ?]]; try discriminate H. einv H. injection H as <- <-.
  apply regular_regular_node in R. cbn [regular_node] in R.
  destruct (inner_casts_value _ _ _ _ _ _ _ _ _ R K S V) as (v0 & d0 & u0 & s0 & E0 & D0 & K0 & L0 & N0).
  exists v0, d0, u0, s0. splits; auto. rewrite <- L0. exact (proj1 (convert_low _ _ _ _ _ K V0)).
Qed.
Lemma not_cast e e0 : srt_is e SRT_CAST_EXPR = false -> strip_casts e = Ok e0 -> e0 = e.
Proof. destruct e as [t d p cs]. cbn [srt_is srt_type]. intros T S. destruct t; cbn [strip_casts] in S; try (now injection S as <-); discriminate T. Qed.
(** the value an operand of type [d] is read as, reduced to a size up to that of [d] or extended by its sign *)
Lemma has_low n n' q d u s v o t : has n n' q d v o -> kind d = Some (u, s) -> in_range u s v = true ->
  (forall sf i, o <> IMMC_OPERAND_INT sf i) -> exists a, ivalue q o = Some a /\ low t a = low t v.
Proof.
  destruct o; cbn [has]; intros H K R N; try contradiction; [| exfalso; eapply N; reflexivity].
  destruct H as (_ & u' & s' & K' & S & U & Rg). rewrite K in K'. injection K' as <- <-. cbn [ivalue]. rewrite S, Rg, size_eqb_refl.
  exists (interp (reg_unsigned r) s (low s v)). split; [reflexivity |]. rewrite U. destruct (pointer d) eqn:Pd.
  - rewrite (pointer_kind _ Pd) in K. injection K as <- <-. rewrite (low_interp_le (uns d) t S8) by (destruct t; cbn; lia).
    apply low_low_le. destruct t; cbn; lia.
  - rewrite (uns_kind _ _ _ K Pd). f_equal. apply low_in_range; [apply low_low | exact R].
Qed.

Section Node.
Variable gen : option dtype -> srt -> gst -> gres.
Hypothesis G : forall od s st cs st', regular s = true -> gen od s st = Ok (cs, st') -> stable st st'.
Hypothesis X : simulated gen.

Lemma step_load sf r s o a q : suffix_size sf = Some s -> is_memory o = false -> ivalue q o = Some a ->
  step (inst2 IMMC_INST_LOAD (IMMC_OPERAND_REG sf r) o) q = INext (set_reg (reg_id r) s (low s a) q).
Proof. intros S M V. cbn. rewrite M, V. cbn. now rewrite S. Qed.

Lemma child_int_ok s i c st cs o st' Sc W v W' q p d u z :
  gen_child_int gen s i st = Ok (cs, o, st') -> gchild s i = Ok c -> regular c = true -> env Sc st ->
  ev Sc c W = Ok (v, W') -> srt_dtype c = Some d -> kind d = Some (u, z) -> at_ p cs -> i_world q = W ->
  exists q', runs_to p cs q q' (g_next st) W' /\ has (g_next st) (g_next st') q' d v o /\ stable st st'
    /\ (forall sf r, o = IMMC_OPERAND_REG sf r -> computed_last c = true -> reg_id r = g_next st').
Proof.
  unfold gen_child_int. intros H Hc R En E D K A Wq. rewrite Hc in H. cbn [bind] in H.
  destruct (srt_is c SRT_CAST_EXPR) eqn:T.
  - unfold dty, deref in H. rewrite D in H. cbn [bind] in H. apply bind_ok in H as (e & S & H).
    destruct (cast_value _ _ _ _ _ _ _ _ _ R T D K S E) as (v0 & d0 & u0 & s0 & E0 & D0 & K0 & L0 & N0).
    assert (Re := strip_regular _ _ R S). destruct (srt_is e SRT_ILITERAL_EXPR) eqn:TL.
    + destruct (eval_literal _ _ _ _ _ E0 TL) as (l & Ll & -> & ->). cbn [bind] in H. rewrite Ll in H. cbn [bind] in H. injection H as <- <- <-.
      exists q. splits; try (now apply runs_nil); try apply stable_refl.
      * cbn. exists u, z. splits; auto; [eapply suffix_kind, K | apply dtyped_unsigned | now rewrite dtyped_value, L0].
      * intros sf r F. discriminate F.
    + ginv H. assert (St := G _ _ _ _ _ Re M). destruct (g_reg g) as [r |] eqn:Gr; [| discriminate M0]. injection M0 as <-.
      unfold next_reg in H. cbn zeta in H. injection H as <- <- <-. apply code_at_app in A as [A1 A2].
      destruct (X _ _ _ _ _ _ _ _ _ _ M Re En E0 A1 Wq) as (q1 & R1 & V1). destruct (V1 _ _ _ D0 K0) as (r1 & Gr1 & B1 & I1 & _).
      rewrite Gr in Gr1. injection Gr1 as <-.
      assert (Hs : has (g_next st) (g_next g) q1 d0 v0 (new_reg_immcope (g_suffix g) r)) by (split; [exact B1 | exact I1]).
      destruct (has_low _ _ _ _ _ _ _ _ z Hs K0 (eval_range _ _ _ _ _ _ _ _ E0 D0 K0) ltac:(discriminate)) as (a & Va & La).
      exists (set_reg (g_next g + 1) z (low z a) q1). splits.
      * eapply (runs_app _ _ _ _ _ _ _ (g_next g)); [exact R1 | | destruct St; lia]. destruct R1 as (_ & R12 & _).
        eapply runs_step; [exact A2 | | exact R12 |].
        -- eapply (step_load _ (mkireg (g_next g + 1) (dtype_isunsignedinteger d)) z); [eapply suffix_kind, K | reflexivity | exact Va].
        -- apply keep_set_reg. lia.
      * cbn [has]. split; [cbn; destruct St; lia |]. exists u, z. splits; auto; [eapply suffix_kind, K |]. cbn. unfold upd. rewrite Z.eqb_refl.
        now rewrite La, L0.
      * eapply stable_trans; [exact St | apply stable_next].
      * intros sf r' F _. injection F as <- <-. reflexivity.
  - cbn [bind] in H. apply bind_ok in H as (e & S & H). apply (not_cast _ _ T) in S. subst e.
    destruct (srt_is c SRT_ILITERAL_EXPR) eqn:TL.
    + destruct (eval_literal _ _ _ _ _ E TL) as (l & Ll & -> & ->). unfold dty, deref in H. rewrite D in H. cbn [bind] in H. rewrite Ll in H. cbn [bind] in H. injection H as <- <- <-.
      exists q. splits; try (now apply runs_nil); try apply stable_refl.
      * cbn. exists u, z. splits; auto; [eapply suffix_kind, K | apply dtyped_unsigned | now rewrite dtyped_value].
      * intros sf r F. discriminate F.
    + ginv H. assert (St := G _ _ _ _ _ R M). destruct (g_reg g) as [r |] eqn:Gr; [| discriminate M0]. injection M0 as <-. injection H as <- <- <-.
      destruct (X _ _ _ _ _ _ _ _ _ _ M R En E A Wq) as (q1 & R1 & V1). destruct (V1 _ _ _ D K) as (r1 & Gr1 & B1 & I1 & La).
      rewrite Gr in Gr1. injection Gr1 as <-. exists q1. splits; auto.
      * split; [exact B1 | exact I1].
      * intros sf r' F. injection F as <- <-. exact La.
Qed.
Lemma child_reg_ok s i c st cs o st' Sc W v W' q p d u z :
  gen_child_reg gen s i st = Ok (cs, o, st') -> gchild s i = Ok c -> regular c = true -> env Sc st ->
  ev Sc c W = Ok (v, W') -> srt_dtype c = Some d -> kind d = Some (u, z) -> at_ p cs -> i_world q = W ->
  exists q' sf r, o = IMMC_OPERAND_REG sf r /\ runs_to p cs q q' (g_next st) W' /\ has (g_next st) (g_next st') q' d v o /\ stable st st'
    /\ (computed_last c = true -> reg_id r = g_next st').
Proof.
  unfold gen_child_reg. intros H Hc R En E D K A Wq. apply bind_ok in H as ([[cs0 src] g] & M & H). destruct src; try discriminate H.
  - injection H as <- <- <-. destruct (child_int_ok _ _ _ _ _ _ _ _ _ _ _ _ _ _ _ _ M Hc R En E D K A Wq) as (q1 & R1 & H1 & S1 & L1).
    exists q1, s0, r. splits; auto. now apply (L1 s0 r).
  - unfold next_reg in H. cbn zeta in H. injection H as <- <- <-. apply code_at_app in A as [A1 A2].
    destruct (child_int_ok _ _ _ _ _ _ _ _ _ _ _ _ _ _ _ _ M Hc R En E D K A1 Wq) as (q1 & R1 & H1 & S1 & _).
    destruct H1 as (u' & z' & K' & Sf & U & Lw). rewrite K in K'. injection K' as <- <-.
    exists (set_reg (g_next g + 1) z (low z (lit_value i0)) q1), s0, (mkireg (g_next g + 1) (iliteral_isunsigned i0)). splits; try reflexivity.
    + eapply (runs_app _ _ _ _ _ _ _ (g_next g)); [exact R1 | | destruct S1; lia]. destruct R1 as (_ & R12 & _).
      eapply runs_step; [exact A2 | eapply (step_load _ (mkireg (g_next g + 1) (iliteral_isunsigned i0)) z); [exact Sf | reflexivity | reflexivity] | exact R12 |]. apply (keep_set_reg (g_next g)). lia.
    + cbn [has]. split; [cbn; destruct S1; lia |]. exists u, z. splits; auto. cbn. unfold upd. now rewrite Z.eqb_refl, Lw.
    + eapply stable_trans; [exact S1 | apply stable_next].
Qed.

Notation addr := (iaddress (p_label P) (p_frame P)).
Lemma ident_address Sc st e n a o : env Sc st -> srt_payload e = SPName n -> ident_ope st e = Ok o -> var_address P Sc n = Ok a ->
  is_memory o = true /\ forall q, addr q o = Some a.
Proof.
  intros [En _] Pl I Va. unfold ident_ope, srt_name in I. rewrite Pl in I. cbn [bind] in I. unfold var_address in Va. rewrite En in Va.
  destruct (sym_search (g_syms st) n) as [[[| off | i] dt] |]; try discriminate Va; cbn in I; injection I as <-.
  - split; [reflexivity |]. intros q. cbn. destruct (p_label P n); [now injection Va as <- | discriminate Va].
  - split; [reflexivity |]. intros q. cbn. now injection Va as <-.
Qed.
Lemma child_ptr_ok s i c st cs o st' Sc W a W' q p d :
  gen_child_ptr gen s i st = Ok (cs, o, st') -> gchild s i = Ok c -> regular c = true -> computed_last c = true -> env Sc st ->
  ev Sc c W = Ok (a, W') -> srt_dtype c = Some d -> pointer d = true -> at_ p cs -> i_world q = W ->
  exists q', runs_to p cs q q' (g_next st) W' /\ is_memory o = true /\ stable st st'
    /\ forall q2, keep (g_next st') q' q2 -> addr q2 o = Some a.
Proof.
  unfold gen_child_ptr. intros H Hc R Cl En E D Pd A Wq. rewrite Hc in H. cbn [bind] in H.
  apply bind_ok in H as (v & Mv & H).
  destruct v as [e |].
  - destruct (srt_is c SRT_ADDR_EXPR) eqn:T; [| discriminate Mv]. ginv Mv. destruct (srt_is x SRT_IDENT_EXPR) eqn:TI; [| discriminate Mv]. injection Mv as ->.
    ginv H. injection H as <- <- <-. destruct c as [t od p0 l]. cbn [srt_is srt_type] in T. destruct t; try discriminate T. cbn [eval] in E.
    cbn [srt_dtype] in D. subst od. destruct d; try discriminate Pd. destruct l as [| c0 [| ? ?]]; try discriminate E. injection M as ->.
    destruct e as [t od p1 l]. cbn [srt_is srt_type] in TI. destruct t; try discriminate TI. destruct p1; try discriminate E. einv E. injection E as <- <-.
    destruct (ident_address Sc st (Srt SRT_IDENT_EXPR od (SPName n) l) n _ _ En eq_refl M0 V) as [Mo Ad].
    exists q. splits; auto; [now apply runs_nil | apply stable_refl].
  - ginv H. injection H as <- <- <-. destruct (X _ _ _ _ _ _ _ _ _ _ M R En E A Wq) as (q1 & R1 & V1).
    destruct (V1 _ _ _ D (pointer_kind _ Pd)) as (r & Gr & B & (u & z & K & Sf & U & Rg) & L). rewrite (pointer_kind _ Pd) in K. injection K as <- <-.
    assert (Rn := eval_range _ _ _ _ _ _ _ _ E D (pointer_kind _ Pd)).
    exists q1. splits; auto; [eapply G; eassumption |]. intros q2 (_ & _ & K2). cbn. rewrite K2 by (cbn; lia). rewrite <- (L Cl), Rg.
    f_equal. apply low_small. unfold in_range in Rn. cbn in *. lia.
Qed.

(** * Conditional jumps *)
Lemma zero_test b u s v a : in_range u s v = true -> low s a = low s v -> (interp b s a =? 0) = (v =? 0).
Proof.
  intros R L. destruct (v =? 0) eqn:Z.
  - apply Z.eqb_eq in Z. subst v. apply Z.eqb_eq. rewrite (interp_of_low b s a 0 L). apply in_range_interp. destruct b, s; reflexivity.
  - apply Z.eqb_neq. intros I. apply Z.eqb_neq in Z. apply Z. rewrite <- (in_range_interp u s v R).
    assert (L2 : low s v = low s 0) by (rewrite <- L, <- (low_interp b s a), I; reflexivity).
    rewrite (interp_of_low u s v 0 L2). apply in_range_interp. destruct u, s; reflexivity.
Qed.
Lemma larger_id s : larger s s = s.
Proof. now destruct s. Qed.
Lemma eval_comparison Sc c W v W' t : ev Sc c W = Ok (v, W') -> get_cjmp_inst_type (srt_type c) t <> None ->
  exists a b d d' u s x y W1 r, srt_children c = [a; b] /\ srt_dtype c = Some DTYPE_INT /\ srt_dtype a = Some d /\ srt_dtype b = Some d' /\ kind d = Some (u, s) /\ kind d' = Some (u, s)
    /\ uns d = uns d' /\ ev Sc a W = Ok (x, W1) /\ ev Sc b W1 = Ok (y, W') /\ relation (srt_type c) x y = Some r /\ v = truth r /\ comparable d x = true /\ comparable d' y = true.
Proof.
  destruct c as [ct od p cs]. cbn [srt_type srt_children srt_dtype]. intros H T. destruct ct; cbn in T; try (now elim T); cbn [eval] in H;
  (destruct od as [[] |]; try discriminate H; destruct cs as [| a [| b [| ? ?]]]; try discriminate H; einv H;
   destruct (srt_dtype a) as [d |] eqn:Da; [| discriminate H]; destruct (comparable d _) eqn:C1 in H; [| discriminate H];
   destruct (comparable d _) eqn:C2 in H; [| discriminate H]; cbn [andb relation] in H; injection H as <- <-;
   destruct (alike_kind _ _ Z) as (d' & u & s & Db & K1 & K2 & Pd);
   eexists a, b, d, d', u, s, _, _, _, _; splits; try eassumption; try reflexivity; try (eapply alike_uns; eassumption);
   unfold comparable in *; now rewrite <- Pd).
Qed.
Lemma compare_relation jt t t' u s a b x y r :
  get_cjmp_inst_type t jt = Some t' -> interp u s a = x -> interp u s b = y -> relation t x y = Some r ->
  compare t' u s a b = Some (Bool.eqb r jt).
Proof.
  intros T <- <- R. destruct t; cbn in T; try discriminate T; cbn in R; injection R as <-; injection T as <-; destruct jt; cbn;
  f_equal; repeat match goal with |- context [?a <? ?b] => destruct (Z.ltb_spec a b) | |- context [?a <=? ?b] => destruct (Z.leb_spec a b) | |- context [?a =? ?b] => destruct (Z.eqb_spec a b) end; cbn; try reflexivity; lia.
Qed.
Lemma jmp_cond_ok s i c jt st cs j st' Sc W v W' q p d u z :
  gen_jmp_cond gen s i jt st = Ok (cs, j, st') -> gchild s i = Ok c -> regular c = true -> env Sc st ->
  ev Sc c W = Ok (v, W') -> srt_dtype c = Some d -> kind d = Some (u, z) -> at_ p cs -> i_world q = W ->
  exists q', runs_to p cs q q' (g_next st) W' /\ stable st st'
    /\ forall n, step (j (IMMC_OPERAND_LABEL n)) q' = if Bool.eqb (negb (v =? 0)) jt then IGoto n q' else INext q'.
Proof.
  unfold gen_jmp_cond. intros H Hc R En E D K A Wq. rewrite Hc in H. cbn [bind] in H.
  destruct (get_cjmp_inst_type (srt_type c) jt) as [t |] eqn:T.
  - assert (Kd := regular_kids _ R). apply bind_ok in H as ([[c1 f] st1] & M1 & H). apply bind_ok in H as ([[c2 g] st2] & M2 & H). injection H as <- <- <-.
    destruct (eval_comparison _ _ _ _ _ jt E ltac:(congruence)) as (a & b & da & db & ua & sa & x & y & W1 & r & Ch & _ & Da & Db & Ka & Kb & Un & Ea & Eb & Rl & -> & Ca & Cb).
    assert (Ga : gchild c 0 = Ok a) by (unfold gchild; now rewrite Ch). assert (Gb : gchild c 1 = Ok b) by (unfold gchild; now rewrite Ch).
    apply code_at_app in A as [A1 A2].
    destruct (child_reg_ok _ _ _ _ _ _ _ _ _ _ _ _ _ _ _ _ M1 Ga (kid _ _ _ Kd Ga) En Ea Da Ka A1 Wq) as (q1 & sf & rr & -> & R1 & H1 & S1 & _).
    assert (Rw := proj1 (proj2 R1)).
    destruct (child_int_ok _ _ _ _ _ _ _ _ _ _ _ _ _ _ _ _ M2 Gb (kid _ _ _ Kd Gb) (env_stable _ _ _ En S1) Eb Db Kb A2 Rw) as (q2 & R2 & H2 & S2 & _).
    exists q2. splits; [eapply runs_app; [exact R1 | exact R2 | destruct S1; lia] | eapply stable_trans; eassumption |].
    intros n. assert (H1' := has_keep _ _ _ _ _ _ _ _ (proj2 (proj2 R2)) ltac:(reflexivity) H1).
    destruct (has_interp _ _ _ _ _ _ _ _ H1' Ka (eval_range _ _ _ _ _ _ _ _ Ea Da Ka) Ca) as (va & Va & Sa & Ua & La & Ia).
    destruct (has_interp _ _ _ _ _ _ _ _ H2 Kb (eval_range _ _ _ _ _ _ _ _ Eb Db Kb) Cb) as (vb & Vb & Sb & Ub & Lb & Ib).
    assert (Cm : common (IMMC_OPERAND_REG sf rr) g = Some sa) by (unfold common; now rewrite Sa, Sb, larger_id).
    assert (Cp : compare t (operand_unsigned (IMMC_OPERAND_REG sf rr)) sa va vb = Some (Bool.eqb r jt))
      by (rewrite Ua; eapply compare_relation; [exact T | exact Ia | rewrite Un; exact Ib | exact Rl]).
    assert (Tr : negb (truth r =? 0) = r) by (now destruct r). rewrite Tr.
    destruct t; cbn [inst3 istep]; rewrite ?Cm, ?Va, ?Vb; try rewrite Cp; try (destruct (Bool.eqb r jt); reflexivity);
    (exfalso; clear -T; destruct (srt_type c), jt; discriminate T).
  - apply bind_ok in H as ([[c1 f] st1] & M1 & H). injection H as <- <- <-.
    destruct (child_reg_ok _ _ _ _ _ _ _ _ _ _ _ _ _ _ _ _ M1 Hc R En E D K A Wq) as (q1 & sf & rr & -> & R1 & H1 & S1 & _).
    exists q1. splits; auto. intros n. assert (Rg := eval_range _ _ _ _ _ _ _ _ E D K).
    destruct (has_facts _ _ _ _ _ _ H1) as (u' & s' & a & K' & Sf & U & Va & La). rewrite K in K'. injection K' as <- <-.
    cbn [ope_suffix]. set (f := IMMC_OPERAND_REG sf rr) in *.
    assert (Cm : common f (new_signed_int_immcope sf IInt 0) = Some z).
    { unfold common. rewrite Sf. cbn. cbn in Sf. now rewrite Sf, larger_id. }
    assert (Zt := zero_test (operand_unsigned f) u z v a Rg La).
    assert (Iz : interp (operand_unsigned f) z 0 = 0) by (apply in_range_interp; destruct (operand_unsigned f), z; reflexivity).
    destruct jt; cbn [inst3 istep]; rewrite Cm, Va; cbn [ivalue new_signed_int_immcope];
    change (lit_value (new_signed IInt 0)) with 0; cbn [compare]; rewrite Iz, Zt; destruct (v =? 0); reflexivity.
Qed.
End Node.
End Sim.
