(** The code of an expression computes its value: operators *)
From Verif Require Import Base SrtModel ImmcModel ImmcgenModel X64Isa X64Decode OpSpec TypeSpec TypeProofs CSem ImmcSem GenSpec ElabProofs GenProofs IsaProofs LabelSpec ExprProofs ExprProofs2.
Open Scope Z_scope.

Ltac einv H :=
  repeat match type of H with
  | bind (check ?b) _ = Ok _ =>
      let Z := fresh "Z" in destruct b eqn:Z; cbn [check bind] in H; [| discriminate H]
  | bind _ _ = Ok _ => let x := fresh "x" in let M := fresh "V" in apply bind_ok in H as (x & M & H); cbv beta in H
  | (let 'pair _ _ := ?x in _) = _ => is_var x; destruct x
  end; cbv beta iota in H.

(** ** Arithmetic *)
Lemma in_range_larger u s z x : nbits s <= nbits z -> in_range u s x = true -> in_range u z x = true.
Proof.
  unfold in_range. intros L R. destruct u.
  - assert (2 ^ nbits s <= 2 ^ nbits z) by (apply Z.pow_le_mono_r; lia). lia.
  - assert (2 ^ (nbits s - 1) <= 2 ^ (nbits z - 1)) by (apply Z.pow_le_mono_r; lia). lia.
Qed.
Lemma larger_bits a b : nbits a <= nbits (larger a b).
Proof. destruct a, b; cbn; lia. Qed.
Definition op_inst (t : srttype) : option insttype :=
  match t with
  | SRT_ADD_EXPR => Some IMMC_INST_ADD | SRT_SUB_EXPR => Some IMMC_INST_SUB | SRT_MUL_EXPR => Some IMMC_INST_MUL
  | SRT_DIV_EXPR => Some IMMC_INST_DIV | SRT_MOD_EXPR => Some IMMC_INST_MOD | SRT_AND_EXPR => Some IMMC_INST_AND
  | SRT_OR_EXPR => Some IMMC_INST_OR | SRT_XOR_EXPR => Some IMMC_INST_XOR
  | _ => None
  end.
Lemma arith_binop t i d u s x y v a b :
  op_inst t = Some i -> kind d = Some (u, s) -> arith t d x y = Ok v -> in_range u s x = true -> in_range u s y = true ->
  low s a = low s x -> low s b = low s y -> exists r, binop i u s a b = Some r /\ low s r = low s v.
Proof.
  intros T K A Rx Ry La Lb. destruct t; cbn [op_inst] in T; try discriminate T; injection T as <-; cbn [arith] in A; cbn [binop];
  try (eexists; split; [reflexivity |]; destruct (fit_low _ _ _ _ _ K A) as [-> _]).
  - now apply low_lor.
  - now apply low_lxor.
  - now apply low_land.
  - now apply low_add.
  - now apply low_sub.
  - now apply low_mul.
  - rewrite (low_in_range u s a x La Rx), (low_in_range u s b y Lb Ry). destruct (y =? 0) eqn:Y0; [discriminate A |]. cbn [orb].
    destruct (fit_low _ _ _ _ _ K A) as [L R]. assert (Q : in_range u s (Z.quot x y) = true).
    { destruct u; [| unfold fit in A; rewrite K in A; destruct (in_range false s (Z.quot x y)); [reflexivity | discriminate A]].
      unfold in_range in *. assert (0 <= Z.quot x y) by (apply Z.quot_pos; lia). assert (Z.quot x y <= x) by (apply Z.quot_le_upper_bound; nia). lia. }
    rewrite Q. cbn [negb]. eexists. split; [reflexivity |]. now rewrite L.
  - rewrite (low_in_range u s a x La Rx), (low_in_range u s b y Lb Ry). destruct (y =? 0) eqn:Y0; [discriminate A |]. cbn [orb].
    apply bind_ok in A as (w & A1 & A). destruct (fit_low _ _ _ _ _ K A) as [L R]. assert (Q : in_range u s (Z.quot x y) = true).
    { destruct u; [| unfold fit in A1; rewrite K in A1; destruct (in_range false s (Z.quot x y)); [reflexivity | discriminate A1]].
      unfold in_range in *. assert (0 <= Z.quot x y) by (apply Z.quot_pos; lia). assert (Z.quot x y <= x) by (apply Z.quot_le_upper_bound; nia). lia. }
    rewrite Q. cbn [negb]. eexists. split; [reflexivity |]. now rewrite L.
Qed.
Definition shift_inst (t : srttype) : option insttype :=
  match t with SRT_LSHIFT_EXPR => Some IMMC_INST_SAL | SRT_RSHIFT_EXPR => Some IMMC_INST_SAR | _ => None end.
Lemma arith_shift t i d u s z x y v :
  shift_inst t = Some i -> kind d = Some (u, s) -> nbits s <= nbits z -> arith t d x y = Ok v -> in_range u s x = true ->
  exists r, binop i u z x y = Some r /\ low s r = low s v.
Proof.
  intros T K L A R. destruct t; cbn in T; try discriminate T; injection T as <-; cbn [arith] in A; unfold width_of in A; rewrite K in A;
  destruct (0 <=? y) eqn:Y0; [| discriminate A | | discriminate A]; destruct (y <? nbits s) eqn:Y1; try discriminate A; cbn [andb negb] in A.
  - destruct (signed_type d && (x <? 0)); [discriminate A |]. destruct (fit_low _ _ _ _ _ K A) as [E _].
    exists (Z.shiftl x y). cbn [binop]. rewrite Y0. assert (Y2 : y <? nbits z = true) by lia. rewrite Y2. split; [reflexivity |].
    rewrite E, Z.shiftl_mul_pow2 by lia. reflexivity.
  - destruct (fit_low _ _ _ _ _ K A) as [E _]. exists (Z.shiftr x y). cbn [binop]. rewrite Y0. assert (Y2 : y <? nbits z = true) by lia. rewrite Y2.
    rewrite (in_range_interp u z x (in_range_larger _ _ _ _ L R)). split; [reflexivity |]. rewrite E, Z.shiftr_div_pow2 by lia. reflexivity.
Qed.
(** the value of a register or of an exact literal of integer type *)
Lemma dtyped_exact d u s i : kind d = Some (u, s) -> integer d = true -> in_range u s (lit_value i) = true ->
  lit_value (create_dtyped_iliteral d i) = lit_value i.
Proof.
  intros K I R. unfold lit_value at 1. rewrite dtyped_unsigned. assert (U := uns_kind _ _ _ K (integer_pointer _ I)). fold (uns d) in U.
  unfold create_dtyped_iliteral. unfold uns in *. rewrite U. unfold lit_value in *. destruct u; cbn; destruct (iliteral_isunsigned i); try reflexivity.
  - unfold wrapu. apply Z.mod_small. unfold in_range in R. assert (nbits s <= 64) by apply nbits_64. assert (2 ^ nbits s <= 2 ^ 64) by (apply Z.pow_le_mono_r; lia). lia.
  - assert (A := in_range_interp false S8 (uval i) (in_range_larger false s S8 (uval i) (nbits_64 s) R)). exact A.
Qed.
Lemma has_exact n n' q d u s v sf r : has n n' q d v (IMMC_OPERAND_REG sf r) -> kind d = Some (u, s) -> integer d = true -> in_range u s v = true ->
  ivalue q (IMMC_OPERAND_REG sf r) = Some v /\ suffix_size sf = Some s /\ reg_unsigned r = u.
Proof.
  intros (_ & u' & s' & K' & S & U & Rg) K I R. rewrite K in K'. injection K' as <- <-. cbn. rewrite S, Rg, size_eqb_refl, U, (uns_kind _ _ _ K (integer_pointer _ I)).
  splits; auto. f_equal. apply low_in_range; [apply low_low | exact R].
Qed.
Lemma uncast_strip : forall e e0, strip_casts e = Ok e0 -> srt_is e0 SRT_ILITERAL_EXPR = true -> forall cl Pl Sc W r, eval cl Pl Sc e W = Ok r -> uncast e = e0.
Proof.
  fix IH 1. intros [t d p cs] e0 S L cl Pl Sc W r E. destruct (srttype_beq t SRT_CAST_EXPR) eqn:T.
  - destruct t; try discriminate T. cbn [strip_casts] in S. cbn [eval] in E. destruct d; [| discriminate E]. destruct cs as [| c [| ? ?]]; try discriminate E.
    apply bind_ok in E as (x & E & _). cbn [uncast]. eapply (IH c e0 S L); exact E.
  - destruct t; try discriminate T; cbn [strip_casts] in S; injection S as <-; try reflexivity.
Qed.

Section Sim.
Variables (call : caller) (P : places) (params : list (size * Z)) (C : list immc).
Hypothesis NL : NoDup (labels C).
Hypothesis PP : places_ok P.
Notation go := (reaches call (p_label P) (p_frame P) params C).
Notation step := (istep call (p_label P) (p_frame P) params).
Notation at_ := (code_at C).
Notation ev := (eval call P).
Notation addr := (iaddress (p_label P) (p_frame P)).
Notation runs_to := (runs_to call P params C).
Notation concl := (concl call P params C).
Notation range := (eval_range call P PP).
Variable gen : option dtype -> srt -> gst -> gres.
Hypothesis G : forall od s st cs st', regular s = true -> gen od s st = Ok (cs, st') -> stable st st'.
Hypothesis X : simulated call P params C gen.
Notation child_int := (child_int_ok call P params C NL PP gen G X).
Notation child_reg := (child_reg_ok call P params C NL PP gen G X).
Notation child_ptr := (child_ptr_ok call P params C PP gen G X).
Notation jmp_cond := (jmp_cond_ok call P params C NL PP gen G X).

Lemma dest_facts e d st dst st1 st2 : srt_dtype e = Some d -> create_dest_reg e st = Ok (dst, st1) -> update_non_void_expr_register dst st1 = Ok st2 ->
  dst = IMMC_OPERAND_REG (immcsuffix_get (dtype_nbytes d)) (mkireg (g_next st + 1) (uns d))
  /\ g_next st1 = g_next st + 1 /\ g_next st2 = g_next st + 1 /\ g_suffix st2 = immcsuffix_get (dtype_nbytes d) /\ g_reg st2 = Some (mkireg (g_next st + 1) (uns d)).
Proof.
  intros D H1 H2. unfold create_dest_reg, dty, deref in H1. rewrite D in H1. cbn in H1. injection H1 as <- <-.
  cbn in H2. injection H2 as <-. now splits.
Qed.
(** the last instruction puts the value into a new register *)
Lemma finish e d u s st st1 st2 st3 p cs c q q1 q2 W1 W' v x dst :
  srt_dtype e = Some d -> kind d = Some (u, s) ->
  runs_to p cs q q1 (g_next st) W1 -> stable st st1 ->
  create_dest_reg e st1 = Ok (dst, st2) -> update_non_void_expr_register dst st2 = Ok st3 ->
  at_ p (cs ++ [c]) -> step c q1 = put_result dst x q2 -> keep (g_next st1) q1 q2 -> i_world q2 = W' -> low s x = low s v ->
  concl e st st3 p (cs ++ [c]) q W' v.
Proof.
  intros D K R S M1 M2 A St Kp Ww Lx. destruct (dest_facts _ _ _ _ _ _ D M1 M2) as (Ed & N1 & N2 & Sf & Rg).
  apply code_at_app in A as [_ A]. rewrite Ed in St. cbn [put_result] in St. rewrite (suffix_kind _ _ _ K) in St. cbn [reg_id] in St.
  exists (set_reg (g_next st1 + 1) s (low s x) q2). split.
  - eapply (runs_app _ _ _ _ _ _ _ _ _ _ _ (g_next st1)); [exact R | | destruct S; lia].
    eapply runs_step; [exact NL | exact A | exact St | exact Ww |]. eapply keep_trans; [exact Kp | apply keep_set_reg | reflexivity]. lia.
  - intros d' u' s' D' K'. rewrite D in D'. injection D' as <-. rewrite K in K'. injection K' as <- <-.
    exists (mkireg (g_next st1 + 1) (uns d)). splits; auto; try (cbn; destruct S; lia).
    exists u, s. splits; auto; [rewrite Sf; eapply suffix_kind, K |]. cbn [reg_id]. now rewrite set_reg_get, Lx.
Qed.

Lemma two_children s a b : srt_children s = [a; b] -> gchild s 0 = Ok a /\ gchild s 1 = Ok b.
Proof. intros E. unfold gchild. now rewrite E. Qed.
Lemma one_child s a : srt_children s = [a] -> gchild s 0 = Ok a.
Proof. intros E. unfold gchild. now rewrite E. Qed.

(** operands of a binary operator *)
Lemma operands s a b da db ua sa ub sb st st1 st2 c1 c2 f g Sc W x W1 y W2 q p :
  regular s = true -> srt_children s = [a; b] -> srt_dtype a = Some da -> srt_dtype b = Some db -> kind da = Some (ua, sa) -> kind db = Some (ub, sb) ->
  gen_child_reg gen s 0 st = Ok (c1, f, st1) -> gen_child_int gen s 1 st1 = Ok (c2, g, st2) -> env Sc st ->
  ev Sc a W = Ok (x, W1) -> ev Sc b W1 = Ok (y, W2) -> at_ p (c1 ++ c2) -> i_world q = W ->
  exists q' sf r, f = IMMC_OPERAND_REG sf r /\ runs_to p (c1 ++ c2) q q' (g_next st) W2 /\ stable st st2
    /\ has (g_next st) (g_next st2) q' da x f /\ has (g_next st1) (g_next st2) q' db y g /\ in_range ua sa x = true /\ in_range ub sb y = true.
Proof.
  intros R Ch Da Db Ka Kb M1 M2 En Ea Eb A Wq. destruct (two_children _ _ _ Ch) as [Ga Gb]. assert (Kd := regular_kids _ R).
  apply code_at_app in A as [A1 A2].
  destruct (child_reg _ _ _ _ _ _ _ _ _ _ _ _ _ _ _ _ M1 Ga (kid _ _ _ Kd Ga) En Ea Da Ka A1 Wq) as (q1 & sf & rr & -> & R1 & H1 & S1 & _).
  destruct (child_int _ _ _ _ _ _ _ _ _ _ _ _ _ _ _ _ M2 Gb (kid _ _ _ Kd Gb) (env_stable _ _ _ En S1) Eb Db Kb A2 (proj1 (proj2 R1))) as (q2 & R2 & H2 & S2 & _).
  exists q2, sf, rr. splits; auto.
  - eapply runs_app; [exact R1 | exact R2 | destruct S1; lia].
  - eapply stable_trans; eassumption.
  - eapply has_le; [reflexivity | | eapply has_keep; [exact (proj2 (proj2 R2)) | reflexivity | exact H1]]. destruct S2; lia.
  - eapply range; eassumption.
  - eapply range; eassumption.
Qed.

Lemma binary_ok t i e st cs st' Sc W v W' q p :
  op_inst (srt_type e) = Some t -> t = i ->
  gen_binary_expr gen i e st = Ok (cs, st') -> regular e = true -> env Sc st -> ev Sc e W = Ok (v, W') -> at_ p cs -> i_world q = W ->
  concl e st st' p cs q W' v.
Proof.
  intros T <- H R En E A Wq. destruct e as [et od pl ch]. cbn [srt_type] in T.
  assert (exists d a b x y W1, od = Some d /\ ch = [a; b] /\ alike (Some d) (srt_dtype a) = true /\ alike (Some d) (srt_dtype b) = true /\ integer d = true
    /\ ev Sc a W = Ok (x, W1) /\ ev Sc b W1 = Ok (y, W') /\ arith et d x y = Ok v) as (d & a & b & x & y & W1 & -> & -> & Aa & Ab & Id & Ea & Eb & Ar).
  { destruct et; cbn [op_inst] in T; try discriminate T; cbn [eval] in E;
    (destruct od as [d |]; [| discriminate E]; destruct ch as [| a [| b [| ? ?]]]; try discriminate E; einv E;
     apply andb_prop in Z as [Z Id]; apply andb_prop in Z as [Za Zb]; injection E as <- <-;
     eexists d, a, b, _, _, _; splits; try reflexivity; eassumption). }
  unfold gen_binary_expr in H. apply bind_ok in H as ([[c1 f] st1] & M1 & H). apply bind_ok in H as ([[c2 g] st2] & M2 & H).
  apply bind_ok in H as ([dst st3] & M3 & H). apply bind_ok in H as (st4 & M4 & H). injection H as <- <-.
  destruct (alike_kind _ _ Aa) as (da & u & s & Da & K & Ka & _). destruct (alike_kind _ _ Ab) as (db & u' & s' & Db & K' & Kb & _). rewrite K in K'. injection K' as <- <-.
  rewrite app_assoc in A |- *. assert (A0 := proj1 (code_at_app _ _ _ _ A)).
  edestruct operands as (q1 & sf & rr & Ef & R1 & S1 & H1 & H2 & Rx & Ry); [exact R | reflexivity | exact Da | exact Db | exact Ka | exact Kb | exact M1 | exact M2 | exact En | exact Ea | exact Eb | exact A0 | exact Wq |]. subst f.
  destruct (has_facts _ _ _ _ _ _ H1) as (ua & sa & va & Ka' & Sa & Ua & Va & La). rewrite Ka in Ka'. injection Ka' as <- <-.
  destruct (has_facts _ _ _ _ _ _ H2) as (ub & sb & vb & Kb' & Sb & Ub & Vb & Lb). rewrite Kb in Kb'. injection Kb' as <- <-.
  destruct (arith_binop _ _ _ _ _ _ _ _ _ _ T K Ar Rx Ry La Lb) as (r & Br & Lr).
  destruct (dest_facts (Srt et (Some d) pl [a; b]) d _ _ _ _ eq_refl M3 M4) as (Ed & _).
  assert (Cm : common (IMMC_OPERAND_REG sf rr) g = Some s) by (unfold common; now rewrite Sa, Sb, larger_id).
  eapply (finish (Srt et (Some d) pl [a; b]) d u s); [reflexivity | exact K | exact R1 | exact S1 | exact M3 | exact M4 | exact A | | apply keep_refl | exact (proj1 (proj2 R1)) |].
  - assert (Ud : operand_unsigned dst = u) by (rewrite Ed; cbn; apply (uns_kind _ _ _ K (integer_pointer _ Id))).
    instantiate (1 := interp u s r). destruct et; cbn [op_inst] in T; try discriminate T; injection T as <-; cbn [inst3 istep]; rewrite Cm, Va, Vb, Ud, Br; reflexivity.
  - now rewrite low_interp.
Qed.

(** ** Shifts *)
Lemma child_int_literal s i c st cs sf l st' d : gen_child_int gen s i st = Ok (cs, IMMC_OPERAND_INT sf l, st') -> gchild s i = Ok c -> srt_dtype c = Some d ->
  exists e l0, strip_casts c = Ok e /\ srt_is e SRT_ILITERAL_EXPR = true /\ srt_iliteral e = Ok l0 /\ l = create_dtyped_iliteral d l0.
Proof.
  unfold gen_child_int. intros H Gc D. rewrite Gc in H. cbn [bind] in H. unfold dty, deref in H. rewrite D in H.
  destruct (srt_is c SRT_CAST_EXPR) eqn:T; cbn [bind] in H; apply bind_ok in H as (e & Se & H).
  - destruct (srt_is e SRT_ILITERAL_EXPR) eqn:TL.
    + cbn [bind] in H. apply bind_ok in H as (l0 & L0 & H). injection H as <- <- <- <-. exists e, l0. now splits.
    + ginv H. cbn in H. discriminate H.
  - apply (not_cast _ _ T) in Se as Se'. subst e. destruct (srt_is c SRT_ILITERAL_EXPR) eqn:TL.
    + rewrite D in H. cbn [bind] in H. apply bind_ok in H as (l0 & L0 & H). injection H as <- <- <- <-. exists c, l0. now splits.
    + ginv H. discriminate H.
Qed.
Lemma count_value s i c st cs o st' d u z Sc W v W' n n' q :
  gen_child_int gen s i st = Ok (cs, o, st') -> gchild s i = Ok c -> srt_dtype c = Some d -> kind d = Some (u, z) -> integer d = true ->
  exact_count c = true -> regular c = true -> ev Sc c W = Ok (v, W') -> has n n' q d v o -> ivalue q o = Some v /\ operand_size o = Some z.
Proof.
  intros H Gc D K I Ex R E Hs. assert (Rg := range _ _ _ _ _ _ _ _ E D K). destruct o; try contradiction.
  - destruct (has_exact _ _ _ _ _ _ _ _ _ Hs K I Rg) as (A & B & _). now split.
  - destruct (child_int_literal _ _ _ _ _ _ _ _ _ H Gc D) as (e & l0 & Se & TL & L0 & ->).
    assert (Un := uncast_strip _ _ Se TL _ _ _ _ _ E). unfold exact_count in Ex. rewrite Un, D, K in Ex.
    destruct Hs as (u' & z' & K' & Sf & _ & Lw). rewrite K in K'. injection K' as <- <-. split; [| exact Sf]. cbn [ivalue].
    destruct e as [et ed ep ec]. cbn [srt_is srt_type] in TL. destruct et; try discriminate TL. cbn in L0. destruct ep; try discriminate L0. injection L0 as ->.
    rewrite (dtyped_exact _ _ _ _ K I Ex). rewrite dtyped_value in Lw. f_equal. rewrite <- (in_range_interp _ _ _ Ex), <- (in_range_interp _ _ _ Rg). now apply interp_of_low.
Qed.
Lemma shift_ok i e st cs st' Sc W v W' q p :
  shift_inst (srt_type e) = Some i ->
  gen_binary_expr gen i e st = Ok (cs, st') -> regular e = true -> env Sc st -> ev Sc e W = Ok (v, W') -> at_ p cs -> i_world q = W ->
  concl e st st' p cs q W' v.
Proof.
  intros T H R En E A Wq. destruct e as [et od pl ch]. cbn [srt_type] in T.
  assert (exists d a b dc x y W1, od = Some d /\ ch = [a; b] /\ alike (Some d) (srt_dtype a) = true /\ integer d = true /\ srt_dtype b = Some dc /\ integer dc = true /\ exact_count b = true
    /\ ev Sc a W = Ok (x, W1) /\ ev Sc b W1 = Ok (y, W') /\ arith et d x y = Ok v) as (d & a & b & db & x & y & W1 & -> & -> & Aa & Id & Db & Ib & Ex & Ea & Eb & Ar).
  { apply regular_regular_node in R. destruct et; cbn [shift_inst] in T; try discriminate T; cbn [eval] in E;
    (destruct od as [d |]; [| discriminate E]; destruct ch as [| a [| b [| ? ?]]]; try discriminate E; einv E;
     apply andb_prop in Z as [Z Ib]; apply andb_prop in Z as [Za Zb]; injection E as <- <-; destruct (srt_dtype b) as [dc |] eqn:Db; [| discriminate Ib];
     eexists d, a, b, dc, _, _, _; splits; try reflexivity; try eassumption). }
  unfold gen_binary_expr in H. apply bind_ok in H as ([[c1 f] st1] & M1 & H). apply bind_ok in H as ([[c2 g] st2] & M2 & H).
  apply bind_ok in H as ([dst st3] & M3 & H). apply bind_ok in H as (st4 & M4 & H). injection H as <- <-.
  destruct (alike_kind _ _ Aa) as (da & u & s & Da & K & Ka & Pda). destruct (integer_kind _ Ib) as (ub & sb & Kb).
  rewrite app_assoc in A |- *. assert (A0 := proj1 (code_at_app _ _ _ _ A)).
  edestruct operands as (q1 & sf & rr & Ef & R1 & S1 & H1 & H2 & Rx & Ry); [exact R | reflexivity | exact Da | exact Db | exact Ka | exact Kb | exact M1 | exact M2 | exact En | exact Ea | exact Eb | exact A0 | exact Wq |]. subst f.
  assert (Ia : integer da = true) by (rewrite (integer_pointer _ Id) in Pda; unfold integer; rewrite Ka; destruct da; auto).
  destruct (has_exact _ _ _ _ _ _ _ _ _ H1 Ka Ia Rx) as (Va & Sa & Ua).
  destruct (count_value _ _ _ _ _ _ _ _ _ _ _ _ _ _ _ _ _ M2 eq_refl Db Kb Ib Ex (kid _ 1%nat _ (regular_kids _ R) eq_refl) Eb H2) as (Vb & Sb).
  assert (Cm : common (IMMC_OPERAND_REG sf rr) g = Some (larger s sb)) by (unfold common; cbn [operand_size]; now rewrite Sa, Sb).
  destruct (arith_shift _ _ _ _ _ (larger s sb) _ _ _ T K (larger_bits _ _) Ar Rx) as (r & Br & Lr).
  eapply (finish (Srt et (Some d) pl [a; b]) d u s); [reflexivity | exact K | exact R1 | exact S1 | exact M3 | exact M4 | exact A | | apply keep_refl | exact (proj1 (proj2 R1)) |].
  - instantiate (1 := interp (operand_unsigned dst) (larger s sb) r).
    destruct et; cbn [shift_inst] in T; try discriminate T; injection T as <-; cbn [inst3 istep]; rewrite Cm, Va, Vb; cbn [operand_unsigned]; rewrite Ua, Br; reflexivity.
  - rewrite low_interp_le by apply larger_bits. exact Lr.
Qed.

(** ** Comparisons *)
Definition set_inst (t : srttype) : option insttype :=
  match t with
  | SRT_EQUAL_EXPR => Some IMMC_INST_SETEQ | SRT_NEQUAL_EXPR => Some IMMC_INST_SETNEQ | SRT_LESS_EXPR => Some IMMC_INST_SETLT
  | SRT_GREATER_EXPR => Some IMMC_INST_SETGT | SRT_LESSEQ_EXPR => Some IMMC_INST_SETLEQ | SRT_GREATEREQ_EXPR => Some IMMC_INST_SETGEQ
  | _ => None
  end.
Lemma comparison_ok i e st cs st' Sc W v W' q p :
  set_inst (srt_type e) = Some i ->
  gen_binary_expr gen i e st = Ok (cs, st') -> regular e = true -> env Sc st -> ev Sc e W = Ok (v, W') -> at_ p cs -> i_world q = W ->
  concl e st st' p cs q W' v.
Proof.
  intros T H R En E A Wq.
  destruct (eval_comparison call P _ _ _ _ _ true E) as (a & b & da & db & u & s & x & y & W1 & r & Ch & De & Da & Db & Ka & Kb & Un & Ea & Eb & Rl & -> & Ca & Cb).
  { destruct (srt_type e); cbn in *; congruence. }
  unfold gen_binary_expr in H. apply bind_ok in H as ([[c1 f] st1] & M1 & H). apply bind_ok in H as ([[c2 g] st2] & M2 & H).
  apply bind_ok in H as ([dst st3] & M3 & H). apply bind_ok in H as (st4 & M4 & H). injection H as <- <-.
  rewrite app_assoc in A |- *. assert (A0 := proj1 (code_at_app _ _ _ _ A)).
  edestruct operands as (q1 & sf & rr & Ef & R1 & S1 & H1 & H2 & Rx & Ry); [exact R | exact Ch | exact Da | exact Db | exact Ka | exact Kb | exact M1 | exact M2 | exact En | exact Ea | exact Eb | exact A0 | exact Wq |]. subst f.
  destruct (has_interp _ _ _ _ _ _ _ _ H1 Ka Rx Ca) as (va & Va & Sa & Ua & La & Ia).
  destruct (has_interp _ _ _ _ _ _ _ _ H2 Kb Ry Cb) as (vb & Vb & Sb & Ub & Lb & Ib).
  assert (Cm : common (IMMC_OPERAND_REG sf rr) g = Some s) by (unfold common; now rewrite Sa, Sb, larger_id).
  eapply (finish e DTYPE_INT false S4); [exact De | reflexivity | exact R1 | exact S1 | exact M3 | exact M4 | exact A | | apply keep_refl | exact (proj1 (proj2 R1)) | reflexivity].
  rewrite <- Un in Ib. subst x y.
  destruct (srt_type e); cbn [set_inst] in T; try discriminate T; injection T as <-; cbn [inst3 istep]; rewrite Cm, Va, Vb, Ua; cbn [compare relation] in *; injection Rl as <-; reflexivity.
Qed.
End Sim.
