(** The code of a statement follows the control flow of C *)
From Verif Require Import Base SrtModel ImmcModel ImmcgenModel X64Isa X64Decode OpSpec TypeSpec TypeProofs CSem ImmcSem GenSpec ElabProofs GenProofs IsaProofs LabelSpec LabelProofs2 ExprProofs ExprProofs2 ExprProofs7 ExprProofs8 StmtProofs StmtProofs2.
Open Scope Z_scope.

Lemma constants_literals : forall s, case_constants s = map lit_value (case_literals s).
Proof.
  apply srt_induction. intros t d p cs F.
  assert (A : (fix all (l : list srt) : list Z := match l with [] => [] | x :: r => case_constants x ++ all r end) cs = map lit_value (items_literals cs)).
  { induction F as [| x l Hx F IH]; [reflexivity |]. cbn [items_literals]. rewrite map_app, <- Hx, <- IH. reflexivity. }
  destruct t; try reflexivity; cbn [case_constants case_literals]; try (rewrite literals_items; exact A).
  destruct cs as [| [vt vd vp vc] [| b [| ? ?]]]; try reflexivity; destruct vp; try reflexivity. cbn [map]. f_equal.
  exact (Forall_inv (Forall_inv_tail F)).
Qed.
Lemma existsb_find {A} (f : A -> bool) l : existsb f l = match find f l with Some _ => true | None => false end.
Proof. induction l as [| x l IH]; [reflexivity |]. cbn. destruct (f x); [reflexivity | exact IH]. Qed.
Lemma find_app_ {A} (f : A -> bool) a b : find f (a ++ b) = match find f a with Some x => Some x | None => find f b end.
Proof. induction a as [| x a IH]; [reflexivity |]. cbn. destruct (f x); [reflexivity | exact IH]. Qed.
Lemma find_none_all {A} (f : A -> bool) l : (forall x, In x l -> f x = false) -> find f l = None.
Proof. induction l as [| x l IH]; intros H; [reflexivity |]. cbn. rewrite (H x) by now left. apply IH. intros y I. apply H. now right. Qed.

(** * Labels of a switch *)
Definition at_literal (u : bool) (z : size) (v : Z) (x : Z * iliteral) : bool := interp u z (lit_value (snd x)) =? v.
(** the label [l] is where the target [t] is, in code generated from [st] to [st'] with [nd] default labels *)
Definition chosen (t : target) (nd : nat) (st st' : gst) (l : Z) : Prop :=
  match t with
  | At_case u z v => exists c0 new i, g_cases st = Some c0 /\ g_cases st' = Some (c0 ++ new) /\ find (at_literal u z v) new = Some (l, i)
  | At_default => nd <> O /\ g_default st' = l
  end.
Definition absent (t : target) (cl : list iliteral) (nd : nat) : Prop :=
  match t with
  | At_case u z v => forall i, In i cl -> interp u z (lit_value i) <> v
  | At_default => nd = O
  end.
Lemma absent_nil t : absent t [] 0.
Proof. destruct t; cbn; [contradiction | reflexivity]. Qed.
Lemma absent_app t c1 n1 c2 n2 : absent t c1 n1 -> absent t c2 n2 -> absent t (c1 ++ c2) (n1 + n2).
Proof. destruct t; cbn; [| lia]. intros A B i I. apply in_app_or in I as [I | I]; auto. Qed.
Lemma chosen_l t n1 cl2 n2 Sc a b c l : chosen t n1 a b l -> settles cl2 n2 Sc b c -> (n1 + n2 <= 1)%nat -> chosen t (n1 + n2) a c l.
Proof.
  intros H S N. destruct t; cbn in *.
  - destruct H as (c0 & new & i & A & B & F). assert (Cs := se_cases _ _ _ _ _ S). rewrite B in Cs. destruct Cs as (new2 & Cs & _).
    exists c0, (new ++ new2), i. split; [exact A |]. split; [now rewrite app_assoc |]. now rewrite find_app_, F.
  - destruct H as [A B]. split; [lia |]. rewrite (se_same _ _ _ _ _ S) by lia. exact B.
Qed.
Lemma chosen_r t cl1 n1 n2 Sc a b c l : settles cl1 n1 Sc a b -> g_cases a <> None -> absent t cl1 n1 -> chosen t n2 b c l -> chosen t (n1 + n2) a c l.
Proof.
  intros S Ca Ab H. destruct t; cbn in *.
  - destruct H as (c0 & new & i & A & B & F). assert (Cs := se_cases _ _ _ _ _ S). destruct (g_cases a) as [ca |]; [| now destruct Ca]. destruct Cs as (new1 & Cs & El).
    rewrite Cs in A. injection A as <-. exists ca, (new1 ++ new), i. split; [reflexivity |]. split; [now rewrite B, app_assoc |]. rewrite find_app_, find_none_all; [exact F |].
    intros x I. unfold at_literal. apply Z.eqb_neq. apply Ab. rewrite <- El. now apply in_map.
  - destruct H as [A B]. split; [lia | exact B].
Qed.
Lemma chosen_fields t nd a b a' b' l : g_cases a' = g_cases a -> g_cases b' = g_cases b -> g_default b' = g_default b -> chosen t nd a b l -> chosen t nd a' b' l.
Proof. intros E1 E2 E3. destruct t; cbn; [now rewrite E1, E2 | now rewrite E3]. Qed.

Section Sim.
Variables (call : caller) (P : places) (params : list (size * Z)) (C : list immc).
Hypothesis NL : NoDup (labels C).
Hypothesis PP : places_ok P.
Notation go := (reaches call (p_label P) (p_frame P) params C).
Notation step := (istep call (p_label P) (p_frame P) params).
Notation at_ := (code_at C).
Notation ev := (eval call P).
Notation runs_to := (runs_to call P params C).
Notation ex := (exec call P).
Notation sim f := (gen_simulated call P params C NL PP f).
Notation lab l k := (label_at (label_id l) C = Some k).

(** * Where a statement leads *)
Definition moves (p : nat) (q : istate) (k : nat) (q' : istate) : Prop := go p q k q' /\ i_args q' = i_args q /\ i_ret q' = i_ret q.
Lemma moves_refl p q : moves p q p q.
Proof. split; [apply go_refl | auto]. Qed.
Lemma moves_trans p q k q1 j q2 : moves p q k q1 -> moves k q1 j q2 -> moves p q j q2.
Proof. intros (A & B & D) (A' & B' & D'). split; [eapply go_trans; eassumption | split; congruence]. Qed.
Lemma moves_go p q k : go p q k q -> moves p q k q.
Proof. now split. Qed.
Lemma moves_runs p cs q q' n W : runs_to p cs q q' n W -> moves p q (p + length cs)%nat q'.
Proof. intros (A & _ & B & D & _). now split. Qed.
Lemma moves_eq p q k k' q' : moves p q k q' -> k = k' -> moves p q k' q'.
Proof. now intros H <-. Qed.

Definition arrives (st : gst) (pend p : nat) (q : istate) (fl : flow) (W' : world) : Prop :=
  exists q', i_world q' = W' /\ i_args q' = i_args q /\ i_ret q' = (match fl with Return (Some v) => Some v | _ => i_ret q end) /\
  match fl with
  | Normal => go p q pend q'
  | Break => forall k, lab (g_brk st) k -> go p q k q'
  | Continue => forall k, lab (g_cont st) k -> go p q k q'
  | Return _ => forall k, lab (g_ret st) k -> go p q k q'
  | Seeking => False
  end.
Lemma arrives_after st pend p q k q1 fl W' : moves p q k q1 -> arrives st pend k q1 fl W' -> arrives st pend p q fl W'.
Proof.
  intros (A & B & D) (q' & E1 & E2 & E3 & E4). exists q'. split; [exact E1 |]. split; [congruence |]. split; [destruct fl as [| | | [] |]; congruence |].
  destruct fl; [eapply go_trans; eassumption | | | | exact E4]; intros j J; (eapply go_trans; [exact A | exact (E4 j J)]).
Qed.
Lemma arrives_normal st pend p q q' W' : moves p q pend q' -> i_world q' = W' -> arrives st pend p q Normal W'.
Proof. intros (A & B & D) E. exists q'. auto. Qed.
Lemma arrives_end st pend p q W' : arrives st pend p q Normal W' -> exists q', moves p q pend q' /\ i_world q' = W'.
Proof. intros (q' & A & B & D & E). exists q'. split; [split; auto | exact A]. Qed.
Lemma arrives_to st pend pend' p q fl W' : arrives st pend p q fl W' -> pend = pend' -> arrives st pend' p q fl W'.
Proof. now intros H <-. Qed.
(** the same, for the statement around: it ends elsewhere but the other exits are the same *)
Lemma arrives_weaken st st' pend p q fl W' : arrives st pend p q fl W' -> g_brk st' = g_brk st -> g_cont st' = g_cont st -> g_ret st' = g_ret st -> arrives st' pend p q fl W'.
Proof. unfold arrives. now intros H -> -> ->. Qed.
(** going on behind a statement that ended normally *)
Lemma arrives_next st pend p q fl W' : arrives st pend p q fl W' ->
  match fl with
  | Normal => exists q', moves p q pend q' /\ i_world q' = W'
  | _ => forall pend', arrives st pend' p q fl W'
  end.
Proof. intros H. destruct fl; [now apply arrives_end in H | | | |]; intros pend'; exact H. Qed.

(** what is to be shown of a statement *)
Definition goal (m : option target) (cl : list iliteral) (nd : nat) (st st' : gst) (pend p : nat) (q : istate) (fl : flow) (W W' : world) : Prop :=
  match m with
  | None => arrives st pend p q fl W'
  | Some t =>
      fl = Seeking /\ W' = W /\ absent t cl nd \/
      fl <> Seeking /\ exists l k, chosen t nd st st' l /\ lab l k /\ arrives st pend k q fl W'
  end.
Definition seek_ok (m : option target) (nd : nat) (st : gst) : Prop := m <> None -> g_cases st <> None /\ (nd <= 1)%nat.

Definition T_exec (n : nat) : Prop := forall m s f Sc st cs st' W fl W' q p,
  gen f None s st = Ok (cs, st') -> regular_stmt Sc s = true -> env Sc st -> deep2 st -> seek_ok m (defaults s) st ->
  ex n m s Sc W = Ok (fl, W') -> at_ p cs -> i_world q = W ->
  goal m (case_literals s) (defaults s) st st' (p + length cs) p q fl W W'.
Definition T_list (n : nat) : Prop := forall m l f Sc st cs st' W fl W' q p,
  append_list (gen f) l st = Ok (cs, st') -> items_regular Sc l = true -> env Sc st -> deep2 st -> seek_ok m (items_defaults l) st ->
  exec_list call P n m l Sc W = Ok (fl, W') -> at_ p cs -> i_world q = W ->
  goal m (items_literals l) (items_defaults l) st st' (p + length cs) p q fl W W'.
Definition T_for (n : nat) : Prop := forall m c u b f Sc Sc2 st1 c1 st2 c2 st3 c3 st4 lb lc le W fl W' q p,
  (if srt_is c SRT_EXPR_STMT then append_jmp (gen f) c 0 false le st1 else Ok ([], st1)) = Ok (c1, st2) ->
  gen f None b (gset_brk le (gset_cont lc st2)) = Ok (c2, st3) ->
  gen f None u (gset_brk (g_brk st2) (gset_cont (g_cont st2) st3)) = Ok (c3, st4) ->
  match c with Srt SRT_EXPR_STMT _ _ [e] => regular e | Srt SRT_NULL_STMT _ _ _ => true | _ => false end = true ->
  regular_stmt Sc b = true -> after b Sc = Ok Sc2 -> regular_stmt Sc2 u = true -> (srt_type u = SRT_NULL_STMT \/ srt_type u = SRT_EXPR_STMT) ->
  env Sc st1 -> deep2 st1 -> seek_ok m (defaults b) st1 ->
  exec_for call P n m c u b Sc W = Ok (fl, W') ->
  at_ p ([normal_label lb] ++ c1 ++ c2 ++ [normal_label lc] ++ c3 ++ [jmp_to lb; normal_label le]) -> i_world q = W ->
  goal m (case_literals b) (defaults b) st1 st4 (p + length ([normal_label lb] ++ c1 ++ c2 ++ [normal_label lc] ++ c3 ++ [jmp_to lb; normal_label le])) p q fl W W'.

(** * Pieces of code *)
Lemma last_label_at p cs n : last_label cs = Some n -> at_ p cs -> exists k, label_at n C = Some k /\ forall q, go k q (p + length cs)%nat q.
Proof.
  unfold last_label. intros H A. destruct (rev cs) as [| c r] eqn:E; [discriminate |]. destruct c as [| | | t v m]; try discriminate. injection H as ->.
  apply (f_equal (@rev _)) in E. rewrite rev_involutive in E. cbn [rev] in E. subst cs. apply code_at_app in A as [_ A].
  exists (p + length (rev r))%nat. split; [eapply label_here; [exact NL | exact A] |]. intros q. rewrite app_length. cbn [length].
  replace (p + (length (rev r) + 1))%nat with (S (p + length (rev r))) by lia. eapply go_label; [exact NL | exact A].
Qed.
Lemma arrives_more st pend pend' p q fl W' : arrives st pend p q fl W' -> (forall q, go pend q pend' q) -> arrives st pend' p q fl W'.
Proof. intros (q' & A & B & D & E) G. exists q'. splits; auto. destruct fl; auto. eapply go_trans; [exact E | apply G]. Qed.
Lemma arrives_flow st pend p q fl W' : arrives st pend p q fl W' -> fl <> Seeking.
Proof. intros (q' & A & B & D & E) ->. exact E. Qed.
Lemma keep_moves p q k q' n : keep n q q' -> go p q k q' -> moves p q k q'.
Proof. intros (A & B & _) G. now split. Qed.

(** a condition *)
Lemma condition_ok f c l st cs st' Sc W v W' q p : append_jmp (gen f) (part [c]) 0 false l st = Ok (cs, st') -> regular c = true -> env Sc st ->
  condition call P Sc c W = Ok (v, W') -> at_ p cs -> i_world q = W ->
  exists q', stable st st' /\ i_world q' = W' /\ (if v =? 0 then forall k, lab l k -> moves p q k q' else moves p q (p + length cs)%nat q').
Proof.
  intros H R En E A Wq. unfold condition in E. apply bind_ok in E as ([] & Ck & E). unfold check in Ck. destruct (scalar_type (srt_dtype c)) eqn:Sk; [| discriminate Ck].
  destruct (scalar_kind _ Sk) as (d & u & z & Ed & Ek).
  destruct (cond_jump call P params C NL PP (gen f) (gen_stable f) (sim f) (part [c]) 0%nat c false l st cs st' Sc W v W' q p d u z H eq_refl R En E Ed Ek A Wq) as (q' & S & K & Wq' & G).
  exists q'. split; [exact S |]. split; [exact Wq' |]. destruct (v =? 0); cbn [negb Bool.eqb] in G; [intros k Lk; eapply keep_moves; [exact K | now apply G] | eapply keep_moves; eassumption].
Qed.

(** the jumps to the cases *)
Definition case_jump (r : ope) (x : Z * iliteral) : immc :=
  inst3 IMMC_INST_JEQ (new_label_immcope_from_id (fst x)) r (new_int_immcope (immcsuffix_get (iliteral_nbytes (snd x))) (snd x)).
Lemma low_eq_interp u s a b : (interp u s a =? interp u s b) = (low s a =? low s b).
Proof.
  apply Bool.eq_iff_eq_true. rewrite !Z.eqb_eq. split; intros H.
  - rewrite <- (low_interp u s a), <- (low_interp u s b). now rewrite H.
  - rewrite <- (interp_low u s a), <- (interp_low u s b). now rewrite H.
Qed.
Lemma case_suffix i z : iliteral_nbytes i <= size_bytes z -> exists s, suffix_size (immcsuffix_get (iliteral_nbytes i)) = Some s /\ larger z s = z.
Proof. destruct i as [t sv uv]. unfold iliteral_nbytes. cbn [itype]. destruct t, z; cbn; intros H; try lia; eexists; split; reflexivity. Qed.
Lemma case_jump_ok r x q u z a v : operand_size r = Some z -> ivalue q r = Some a -> low z a = low z v -> in_range u z v = true -> iliteral_nbytes (snd x) <= size_bytes z ->
  step (case_jump r x) q = if at_literal u z v x then IGoto (label_id (fst x)) q else INext q.
Proof.
  intros Es Ev El R Nb. destruct (case_suffix _ _ Nb) as (s & Es' & La). unfold case_jump, inst3, istep, new_label_immcope_from_id, new_int_immcope, common. cbn [operand_size].
  rewrite Es, Es', La. cbn iota beta. rewrite Ev. cbn [ivalue compare].
  assert (X : (interp (operand_unsigned r) z a =? interp (operand_unsigned r) z (lit_value (snd x))) = at_literal u z v x).
  { rewrite low_eq_interp, El. unfold at_literal. rewrite <- (in_range_interp u z v R) at 2. rewrite low_eq_interp. apply Z.eqb_sym. }
  rewrite X. destruct (at_literal u z v x); reflexivity.
Qed.
Lemma table_ok r q u z a v : operand_size r = Some z -> ivalue q r = Some a -> low z a = low z v -> in_range u z v = true ->
  forall l p, (forall x, In x l -> iliteral_nbytes (snd x) <= size_bytes z) -> at_ p (map (case_jump r) l) ->
  match find (at_literal u z v) l with
  | Some (n, _) => forall k, lab n k -> go p q k q
  | None => go p q (p + length (map (case_jump r) l))%nat q
  end.
Proof.
  intros Es Ev El R. induction l as [| x l IH]; intros p Nb A; cbn [find map length].
  - rewrite Nat.add_0_r. apply go_refl.
  - cbn [map] in A. assert (A' := at_cons C NL _ _ _ A). assert (J := case_jump_ok r x q u z a v Es Ev El R (Nb x (or_introl eq_refl))). destruct (at_literal u z v x).
    + destruct x as [n i]. intros k Lk. eapply go_jump; [exact NL | exact A | exact J | exact Lk].
    + specialize (IH (S p) (fun y I => Nb y (or_intror I)) A'). assert (G : go p q (S p) q) by (eapply go_next; [exact NL | exact A | exact J]).
      destruct (find _ l) as [[n i] |]; [intros k Lk; eapply go_trans; [exact G | now apply IH] |]. rewrite <- Nat.add_succ_comm. eapply go_trans; eassumption.
Qed.

(** * Declarations *)
Lemma init_decl_ok f s Sc st cs st' W W' q p : gen f None s st = Ok (cs, st') -> srt_is s SRT_INIT_DECL = true -> regular_stmt Sc s = true -> env Sc st -> deep2 st ->
  init_declaration call P Sc s W = Ok W' -> at_ p cs -> i_world q = W -> exists q', moves p q (p + length cs)%nat q' /\ i_world q' = W'.
Proof.
  intros H Is R En D E A Wq. destruct f as [| f]; [discriminate H |]. assert (Gl := deep2_local _ D). destruct s as [t d pl ch]. cbn [gen] in H. unfold gen_body in H. cbn [srt_type srt_children] in H.
  destruct t; try discriminate Is. destruct ch as [| [it [idt |] ip ic] ch]; try discriminate R; [| destruct it; destruct ch as [| ? [| ? ?]]; discriminate R].
  destruct it; try (destruct ch as [| ? [| ? ?]]; discriminate R). destruct ip as [| n | | |]; try (destruct ch as [| ? [| ? ?]]; discriminate R).
  unfold gen_init_decl in H. rewrite Gl in H. unfold gen_local_init_decl in H. apply bind_ok in H as ([c0 st0] & H0 & H). unfold append_child in H0. cbn [gchild srt_children nth_error deref bind] in H0.
  destruct (ident_settles _ (gen_settles f) _ _ _ _ _ _ _ En D H0) as (Sc1 & Dc & E1 & -> & S1 & L1).
  destruct ch as [| i [| ? ?]]; [| | discriminate R].
  - cbn in E. injection E as <-. injection H as <- _. cbn. rewrite Nat.add_0_r. exists q. split; [apply moves_refl | exact Wq].
  - cbn [length srt_children Nat.eqb] in H. cbn [gchild srt_children nth_error deref bind srt_name srt_payload] in H. cbn [regular_stmt] in R. rewrite Dc in R. cbn [init_declaration] in E. rewrite Dc in E. cbn [bind] in E.
    assert (E1' := E1). destruct E1' as [Es Et]. rewrite Es in R, E. apply bind_ok in H as (y & Hy & H). apply deref_ok in Hy. rewrite Hy in R, E. cbv zeta in H.
    apply bind_ok in H as ([c1 st1] & H1 & H). injection H as <- _. destruct (regular_init _ _ _) as [k |] eqn:Ek; [| discriminate R].
    destruct y as [kk dd]; destruct kk as [| off |] eqn:Ekk; try discriminate E; cbn [sy_kind sy_dtype] in *.
    assert (Gl0 : is_global (gset_off off st0) = false). { unfold is_global in *. cbn. now rewrite L1. }
    assert (E0 : env Sc1 (gset_off off st0)) by now split.
    destruct (init_ok call P params C NL PP f i dd k (low S8 (p_frame P - off)) (gset_off off st0) c1 st1 Sc1 W W' q p H1 Ek E0 Gl0 E) as (q' & Rn); [cbn; symmetry; apply low_low | exact A | exact Wq |].
    exists q'. split; [eapply moves_runs; exact Rn | apply Rn].
Qed.
Lemma decls_ok f : forall l Sc st cs st' W W' q p, append_list (gen f) l st = Ok (cs, st') -> forallb (fun x => srt_is x SRT_INIT_DECL) l = true -> items_regular Sc l = true -> env Sc st -> deep2 st ->
  declarations call P l Sc W = Ok W' -> at_ p cs -> i_world q = W -> exists q', moves p q (p + length cs)%nat q' /\ i_world q' = W'.
Proof.
  induction l as [| s l IH]; intros Sc st cs st' W W' q p H Is R En D E A Wq.
  - injection H as <- <-. injection E as <-. cbn. rewrite Nat.add_0_r. exists q. split; [apply moves_refl | exact Wq].
  - cbn [append_list] in H. apply bind_ok in H as ([c1 st1] & H1 & H). apply bind_ok in H as ([c2 st2] & H2 & H). injection H as <- <-.
    cbn [forallb] in Is. apply andb_prop in Is as [Is1 Is2]. cbn [items_regular] in R. apply andb_prop in R as [R1 R2].
    destruct (gen_settles _ _ _ _ _ _ R1 En D H1) as (Sc1 & A1 & S1). rewrite A1 in R2. cbn [declarations] in E. apply bind_ok in E as (W1 & Ei & E). rewrite A1 in E. cbn [bind] in E.
    apply code_at_app in A as [Ac1 Ac2]. destruct (init_decl_ok _ _ _ _ _ _ _ _ _ _ H1 Is1 R1 En D Ei Ac1 Wq) as (q1 & M1 & Wq1).
    destruct (IH _ _ _ _ _ _ _ _ H2 Is2 R2 (se_env _ _ _ _ _ S1) (deep2_settles _ _ _ _ _ S1 D) E Ac2 Wq1) as (q2 & M2 & Wq2).
    exists q2. split; [| exact Wq2]. rewrite app_length, Nat.add_assoc. eapply moves_trans; eassumption.
Qed.

Section Step.
Variable n : nat.
Hypothesis X1 : T_exec n.
Hypothesis X2 : T_list n.
Hypothesis X3 : T_for n.

Lemma list_step : T_list (S n).
Proof.
  intros m l f Sc st cs st' W fl W' q p H R En D Sk E A Wq. cbn [exec_list] in E. destruct l as [| s l].
  - cbn in H. injection H as <- <-. injection E as <- <-. destruct m as [t |]; cbn [goal items_literals items_defaults].
    + left. splits; auto. apply absent_nil.
    + cbn. rewrite Nat.add_0_r. eapply arrives_normal; [apply moves_refl | exact Wq].
  - cbn [append_list] in H. apply bind_ok in H as ([c1 st1] & H1 & H). apply bind_ok in H as ([c2 st2] & H2 & H). injection H as <- <-.
    cbn [items_regular] in R. apply andb_prop in R as [R1 R2]. destruct (gen_settles _ _ _ _ _ _ R1 En D H1) as (Sc1 & A1 & S1). rewrite A1 in R2.
    assert (E1 := se_env _ _ _ _ _ S1). assert (D1 := deep2_settles _ _ _ _ _ S1 D).
    destruct (items_settle f (gen_settles f) _ _ _ _ _ R2 E1 D1 H2) as (Sc2 & A2 & S2).
    apply bind_ok in E as ([f1 W1] & Ex1 & E). rewrite A1 in E. cbn [bind] in E. apply code_at_app in A as [Ac1 Ac2].
    cbn [items_literals items_defaults] in *.
    assert (Sk1 : seek_ok m (defaults s) st) by (intros N; destruct (Sk N); split; [assumption | lia]).
    assert (K1 := X1 _ _ _ _ _ _ _ _ _ _ _ _ H1 R1 En D Sk1 Ex1 Ac1 Wq).
    assert (Er : forall st0 fl0 pe pp qq WW, arrives st1 pe pp qq fl0 WW -> st0 = st -> arrives st0 pe pp qq fl0 WW).
    { intros st0 fl0 pe pp qq WW Hx ->. eapply arrives_weaken; [exact Hx | symmetry; apply (se_brk _ _ _ _ _ S1) | symmetry; apply (se_cont _ _ _ _ _ S1) | symmetry; apply (se_ret _ _ _ _ _ S1)]. }
    assert (Pe : (p + length c1 + length c2 = p + length (c1 ++ c2))%nat) by (rewrite app_length; lia).
    (* the rest, after a normal end of the first one *)
    assert (Rest : forall q1, i_world q1 = W1 -> f1 = Normal -> arrives st (p + length (c1 ++ c2)) (p + length c1) q1 fl W').
    { intros q1 Wq1 Ef. subst f1. assert (K2 := X2 None _ _ _ _ _ _ _ _ _ _ _ H2 R2 E1 D1 (fun N => False_ind _ (N eq_refl)) E Ac2 Wq1). cbn [goal] in K2.
      eapply Er; [| reflexivity]. eapply arrives_to; [exact K2 | exact Pe]. }
    assert (Tot : forall k q0, arrives st (p + length c1) k q0 f1 W1 -> arrives st (p + length (c1 ++ c2)) k q0 fl W' ).
    { intros k q0 K. assert (Kn := arrives_next _ _ _ _ _ _ K). destruct f1; try (injection E as <- <-; apply Kn).
      - destruct Kn as (q1 & Mv & Wq1). eapply arrives_after; [exact Mv |]. now apply Rest.
      - destruct K as (q' & _ & _ & _ & []). }
    destruct m as [t |]; cbn [goal] in *; [| now apply Tot].
    destruct K1 as [(Ef & Ew & Ab) | (Nf & l' & k & Ch & Lk & K1)].
    + subst f1 W1. assert (Sk2 : seek_ok (Some t) (items_defaults l) st1).
      { intros N. destruct (Sk N) as [Sa Sb]. split; [| lia]. assert (Cs := se_cases _ _ _ _ _ S1). destruct (g_cases st); [| now destruct Sa]. destruct Cs as (nw & -> & _). discriminate. }
      assert (K2 := X2 (Some t) _ _ _ _ _ _ _ _ _ _ _ H2 R2 E1 D1 Sk2 E Ac2 Wq). cbn [goal] in K2. destruct K2 as [(Ef & Ew & Ab2) | (Nf & l' & k & Ch & Lk & K2)].
      * left. splits; auto. now apply absent_app.
      * right. split; [exact Nf |]. exists l', k. split; [| split; [exact Lk |]].
        -- eapply chosen_r; [exact S1 | apply Sk; discriminate | exact Ab | exact Ch].
        -- eapply Er; [| reflexivity]. eapply arrives_to; [exact K2 | exact Pe].
    + right. assert (Kt := Tot _ _ K1). split; [intros ->; destruct Kt as (q' & _ & _ & _ & []) |]. exists l', k. split; [| split; [exact Lk | exact Kt]].
      eapply chosen_l; [exact Ch | exact S2 | apply (Sk ltac:(discriminate))].
Qed.

Lemma none_ok nd st : seek_ok None nd st.
Proof. intros N. now destruct N. Qed.

(** an [if] without [else] *)
Lemma if_step m c a f Sc st cs st' W fl W' q p x y :
  gen_if_without_else_stmt (gen f) (Srt SRT_IF_STMT x y [c; a]) st = Ok (cs, st') -> regular c = true -> regular_stmt Sc a = true -> env Sc st -> deep2 st -> seek_ok m (defaults a) st ->
  match m with Some _ => ex n m a Sc W | None => do (x, W) <- condition call P Sc c W; if x =? 0 then Ok (Normal, W) else ex n None a Sc W end = Ok (fl, W') ->
  at_ p cs -> i_world q = W -> goal m (case_literals a) (defaults a) st st' (p + length cs) p q fl W W'.
Proof.
  intros H R1 R2 En D Sk E A Wq. unfold gen_if_without_else_stmt, next_label in H. apply bind_ok in H as ([[c1 j] st1] & H1 & H). apply bind_ok in H as ([c2 st2] & H2 & H).
  unfold append_child in H2. cbn [gchild srt_children nth_error deref bind] in H2.
  match type of H1 with gen_jmp_cond _ _ _ _ ?s = _ => set (s1 := s) in * end.
  assert (S0 : stable st s1) by (split; cbn; try reflexivity; lia). assert (E0 : env Sc s1) by (eapply env_stable; eassumption).
  assert (S1 : stable st st1). { eapply stable_trans; [exact S0 | eapply (stable_jmp_cond (gen f) (gen_stable f) (part [c]) 0%nat); [now apply kids_part1 | exact H1]]. }
  assert (E1 : env Sc st1) by exact (env_stable _ _ _ En S1). assert (D1 : deep2 st1) by (exact (deep2_settles _ _ _ _ _ (settles_stable Sc _ _ En S1) D)).
  (* the code is: condition, jump, body and perhaps a label *)
  assert (X : exists ln tail, at_ p (c1 ++ j (IMMC_OPERAND_LABEL ln) :: c2 ++ tail) /\ cs = c1 ++ j (IMMC_OPERAND_LABEL ln) :: c2 ++ tail /\ st' = st2
     /\ (exists k, label_at ln C = Some k /\ forall q, go k q (p + length cs)%nat q) /\ forall q, go (S (p + length c1) + length c2)%nat q (p + length cs)%nat q).
  { destruct (last_label c2) as [ln |] eqn:Ll.
    - injection H as <- <-. exists ln, []. rewrite !app_nil_r. split; [exact A |]. split; [reflexivity |]. split; [reflexivity |].
      assert (Ap := A). apply code_at_app in Ap as [_ Ap]. apply (at_cons C NL) in Ap.
      destruct (last_label_at _ _ _ Ll Ap) as (k & Lk & G). rewrite app_length. cbn [length]. replace (p + (length c1 + S (length c2)))%nat with (S (p + length c1) + length c2)%nat by lia.
      split; [exists k; split; [exact Lk | exact G] |]. intros q0. apply go_refl.
    - injection H as <- <-. exists (label_id (g_label st + 1)), [normal_label (g_label st + 1)]. split; [exact A |]. split; [reflexivity |]. split; [reflexivity |].
      assert (Ap := A). apply code_at_app in Ap as [_ Ap]. apply (at_cons C NL) in Ap. apply code_at_app in Ap as [_ Ap].
      assert (Lk := label_id_at C NL _ _ _ Ap). assert (G := fun q => go_label_id call P params C NL _ _ _ q Ap).
      rewrite app_length. cbn [length]. rewrite app_length. cbn [length]. replace (p + (length c1 + S (length c2 + 1)))%nat with (S (S (p + length c1) + length c2)) by lia.
      split; [| exact G]. eexists. split; [exact Lk | exact G]. }
  clear H. destruct X as (ln & tail & Ac & Ec & -> & (k & Lk & Gk) & Ge). apply code_at_app in Ac as [A1 A2]. assert (A3 := at_cons C NL _ _ _ A2). apply code_at_app in A3 as [A3 _].
  assert (Body : forall m k q0 fl W1 W', goal m (case_literals a) (defaults a) st1 st2 (S (p + length c1) + length c2) k q0 fl W1 W' -> goal m (case_literals a) (defaults a) st st2 (p + length cs) k q0 fl W1 W').
  { assert (Ar : forall k q0 fl W', arrives st1 (S (p + length c1) + length c2) k q0 fl W' -> arrives st (p + length cs) k q0 fl W').
    { intros k0 q0 fl0 W0 K. eapply arrives_more; [| exact Ge]. eapply arrives_weaken; [exact K | symmetry; apply (st_brk _ _ S1) | symmetry; apply (st_cont _ _ S1) | symmetry; apply (st_ret _ _ S1)]. }
    intros [t |] k0 q0 fl0 W1 W0 K; cbn [goal] in *; [| now apply Ar]. destruct K as [K | (Nf & l & kk & Ch & Lkk & K)]; [now left |]. right. split; [exact Nf |]. exists l, kk.
    split; [eapply chosen_fields; [symmetry; apply (st_cases _ _ S1) | reflexivity | reflexivity | exact Ch] |]. split; [exact Lkk | now apply Ar]. }
  destruct m as [t |].
  - apply Body. assert (Sk1 : seek_ok (Some t) (defaults a) st1) by (intros N; destruct (Sk N); split; [now rewrite (st_cases _ _ S1) | assumption]).
    assert (K := X1 (Some t) _ _ _ _ _ _ _ _ _ _ _ H2 R2 E1 D1 Sk1 E A3 Wq). cbn [goal] in *. exact K.
  - cbn [goal]. apply bind_ok in E as ([v W1] & Ec1 & E). unfold condition in Ec1. apply bind_ok in Ec1 as ([] & Ck & Ec1). unfold check in Ck. destruct (scalar_type (srt_dtype c)) eqn:Sc0; [| discriminate Ck].
    destruct (scalar_kind _ Sc0) as (d & u & z & Ed & Ek).
    destruct (jmp_cond_ok call P params C NL PP (gen f) (gen_stable f) (sim f) (part [c]) 0%nat c false s1 c1 j st1 Sc W v W1 q p d u z H1 eq_refl R1 E0 Ec1 Ed Ek A1 Wq) as (q1 & Rn & _ & J).
    specialize (J ln). assert (M1 := moves_runs _ _ _ _ _ _ Rn). assert (Wq1 : i_world q1 = W1) by apply Rn. destruct (v =? 0); cbn [negb Bool.eqb] in J.
    + injection E as <- <-. eapply arrives_after; [exact M1 |]. eapply arrives_normal; [| exact Wq1]. apply moves_go.
      eapply go_trans; [eapply go_jump; [exact NL | exact A2 | exact J | exact Lk] | apply Gk].
    + eapply arrives_after; [exact M1 |]. eapply arrives_after; [apply moves_go; eapply go_next; [exact NL | exact A2 | exact J] |].
      assert (K := X1 None _ _ _ _ _ _ _ _ _ _ _ H2 R2 E1 D1 (none_ok _ _) E A3 Wq1). exact (Body None _ _ _ _ _ K).
Qed.

(** moving the goal of a part to the whole *)
Lemma goal_part m cl nd s1 s1' st st' pe pend p q fl W W' : goal m cl nd s1 s1' pe p q fl W W' ->
  g_brk s1 = g_brk st -> g_cont s1 = g_cont st -> g_ret s1 = g_ret st -> g_cases s1 = g_cases st -> g_cases s1' = g_cases st' -> g_default s1' = g_default st' -> (forall q, go pe q pend q) ->
  goal m cl nd st st' pend p q fl W W'.
Proof.
  intros K B1 B2 B3 B4 B5 B6 G. assert (Ar : forall k, arrives s1 pe k q fl W' -> arrives st pend k q fl W').
  { intros k A. eapply arrives_more; [| exact G]. eapply arrives_weaken; [exact A | now symmetry | now symmetry | now symmetry]. }
  destruct m as [t |]; cbn [goal] in *; [| now apply Ar]. destruct K as [K | (Nf & l & kk & Ch & Lkk & K)]; [now left |]. right. split; [exact Nf |]. exists l, kk.
  split; [eapply chosen_fields; [symmetry; exact B4 | symmetry; exact B5 | symmetry; exact B6 | exact Ch] |]. split; [exact Lkk | now apply Ar].
Qed.

(** an [if] with [else] *)
Lemma if_else_step m c a b f Sc Sc1 st cs st' W fl W' q p x y :
  gen_if_with_else_stmt (gen f) (Srt SRT_IF_STMT x y [c; a; b]) st = Ok (cs, st') -> regular c = true -> regular_stmt Sc a = true -> after a Sc = Ok Sc1 -> regular_stmt Sc1 b = true ->
  env Sc st -> deep2 st -> seek_ok m (defaults a + defaults b) st ->
  match m with
  | Some _ => do (f, W) <- ex n m a Sc W; match f with Seeking => ex n m b Sc1 W | _ => Ok (f, W) end
  | None => do (x, W) <- condition call P Sc c W; if x =? 0 then ex n None b Sc1 W else ex n None a Sc W
  end = Ok (fl, W') ->
  at_ p cs -> i_world q = W -> goal m (case_literals a ++ case_literals b) (defaults a + defaults b) st st' (p + length cs) p q fl W W'.
Proof.
  intros H R1 R2 Aa R3 En D Sk E A Wq. unfold gen_if_with_else_stmt, next_label in H.
  apply bind_ok in H as ([c1 st1] & H1 & H). apply bind_ok in H as ([c2 st2] & H2 & H). apply bind_ok in H as ([c3 st3] & H3 & H).
  unfold append_child in H2, H3. cbn [gchild srt_children nth_error deref bind] in H2, H3.
  match type of H1 with append_jmp _ _ _ _ ?l ?s = _ => set (s1 := s) in *; set (lf := l) in * end.
  assert (S0 : stable st s1) by (split; cbn; try reflexivity; lia). assert (E0 : env Sc s1) by exact (env_stable _ _ _ En S0).
  assert (S1 : stable st st1). { eapply stable_trans; [exact S0 | eapply (stable_jmp (gen f) (gen_stable f) (part [c]) 0%nat); [now apply kids_part1 | exact H1]]. }
  assert (E1 : env Sc st1) by exact (env_stable _ _ _ En S1). assert (D1 : deep2 st1) by (exact (deep2_settles _ _ _ _ _ (settles_stable Sc _ _ En S1) D)).
  destruct (gen_settles _ _ _ _ _ _ R2 E1 D1 H2) as (Sc1' & Aa' & S2). rewrite Aa in Aa'. injection Aa' as <-.
  assert (E2 := se_env _ _ _ _ _ S2). assert (D2 := deep2_settles _ _ _ _ _ S2 D1). destruct (gen_settles _ _ _ _ _ _ R3 E2 D2 H3) as (Sc2 & _ & S3).
  set (n2 := (p + length c1)%nat). set (n3 := (S (S (n2 + length c2)))%nat).
  assert (X : exists lbl tail, at_ p (c1 ++ c2 ++ IMMC_INST IMMC_INST_JMP (Some (new_label_immcope lbl)) None None :: normal_label lf :: c3 ++ tail)
     /\ st' = st3 /\ (exists k, label_at lbl C = Some k /\ forall q, go k q (p + length cs)%nat q) /\ forall q, go (n3 + length c3)%nat q (p + length cs)%nat q).
  { destruct (last_label (normal_label lf :: c3)) as [ln |] eqn:Ll.
    - injection H as <- <-. exists ln, []. rewrite !app_nil_r. split; [exact A |]. split; [reflexivity |].
      assert (Ap := A). apply code_at_app in Ap as [_ Ap]. apply code_at_app in Ap as [_ Ap]. apply (at_cons C NL) in Ap.
      destruct (last_label_at _ _ _ Ll Ap) as (k & Lk & G). cbn [length] in G. rewrite !app_length. cbn [length]. subst n2 n3.
      replace (p + (length c1 + (length c2 + S (S (length c3)))))%nat with (S (S (p + length c1 + length c2)) + length c3)%nat by lia.
      replace (S (p + length c1 + length c2) + S (length c3))%nat with (S (S (p + length c1 + length c2)) + length c3)%nat in G by lia.
      split; [exists k; split; [exact Lk | exact G] |]. intros q0. apply go_refl.
    - injection H as <- <-. exists (label_id (g_label st + 1 + 1)), [normal_label (g_label st + 1 + 1)]. split; [exact A |]. split; [reflexivity |].
      assert (Ap := A). apply code_at_app in Ap as [_ Ap]. apply code_at_app in Ap as [_ Ap]. apply (at_cons C NL) in Ap. apply (at_cons C NL) in Ap. apply code_at_app in Ap as [_ Ap].
      assert (Lk := label_id_at C NL _ _ _ Ap). assert (G := fun q => go_label_id call P params C NL _ _ _ q Ap).
      rewrite !app_length. cbn [length]. rewrite !app_length. cbn [length]. subst n2 n3.
      replace (p + (length c1 + (length c2 + S (S (length c3 + 1)))))%nat with (S (S (S (p + length c1 + length c2)) + length c3)) by lia.
      split; [| exact G]. eexists. split; [exact Lk | exact G]. }
  clear H. destruct X as (ln & tail & Ac & -> & (k & Lk & Gk) & Ge). apply code_at_app in Ac as [A1 A2]. fold n2 in A2. apply code_at_app in A2 as [A2 A3]. assert (A4 := at_cons C NL _ _ _ A3).
  assert (Lf := label_id_at C NL _ _ _ A4). assert (Gf := fun q => go_label_id call P params C NL _ _ _ q A4). apply (at_cons C NL) in A4. fold n3 in A4, Gf. apply code_at_app in A4 as [A4 _].
  assert (J : forall q, go (n2 + length c2)%nat q (p + length cs)%nat q).
  { intros q0. eapply go_trans; [eapply go_jump; [exact NL | exact A3 | reflexivity | exact Lk] | apply Gk]. }
  (* the two branches *)
  assert (Ka : forall m q0 W0 fl W1, seek_ok m (defaults a) st1 -> ex n m a Sc W0 = Ok (fl, W1) -> i_world q0 = W0 -> goal m (case_literals a) (defaults a) st st2 (p + length cs) n2 q0 fl W0 W1).
  { intros m0 q0 W0 fl0 W1 Sk0 Ex Wq0. eapply goal_part; [exact (X1 _ _ _ _ _ _ _ _ _ _ _ _ H2 R2 E1 D1 Sk0 Ex A2 Wq0) | apply S1 | apply S1 | apply S1 | apply S1 | reflexivity | reflexivity | exact J]. }
  assert (Kb : forall m q0 W0 fl W1, seek_ok m (defaults b) st2 -> ex n m b Sc1 W0 = Ok (fl, W1) -> i_world q0 = W0 -> goal m (case_literals b) (defaults b) st2 st3 (p + length cs) n3 q0 fl W0 W1).
  { intros m0 q0 W0 fl0 W1 Sk0 Ex Wq0. eapply goal_part; [exact (X1 _ _ _ _ _ _ _ _ _ _ _ _ H3 R3 E2 D2 Sk0 Ex A4 Wq0) | reflexivity | reflexivity | reflexivity | reflexivity | reflexivity | reflexivity | exact Ge]. }
  assert (Er : forall pe pp qq fl0 WW, arrives st2 pe pp qq fl0 WW -> arrives st pe pp qq fl0 WW).
  { intros pe pp qq fl0 WW Hx. eapply arrives_weaken; [exact Hx | rewrite (se_brk _ _ _ _ _ S2); symmetry; apply S1 | rewrite (se_cont _ _ _ _ _ S2); symmetry; apply S1 | rewrite (se_ret _ _ _ _ _ S2); symmetry; apply S1]. }
  destruct m as [t |].
  - destruct (Sk ltac:(discriminate)) as [Sk0 Nd]. assert (Nda : (defaults a <= 1)%nat) by lia. assert (Ndb : (defaults b <= 1)%nat) by lia. assert (Sk1 : g_cases st1 <> None) by now rewrite (st_cases _ _ S1).
    assert (Sk2 : g_cases st2 <> None). { assert (Cs := se_cases _ _ _ _ _ S2). destruct (g_cases st1); [| now destruct Sk1]. destruct Cs as (nw & -> & _). discriminate. }
    apply bind_ok in E as ([f1 W1] & Ex1 & E). assert (K1 := Ka (Some t) q W f1 W1 (fun _ => conj Sk1 Nda) Ex1 Wq). cbn [goal] in K1 |- *.
    assert (S2' := settles_l f (gen_settles f) _ _ _ _ _ _ S1 S2). destruct K1 as [(Ef & Ew & Ab) | (Nf & l & kk & Ch & Lkk & K1)].
    + subst f1 W1. assert (K2 := Kb (Some t) q W fl W' (fun _ => conj Sk2 Ndb) E Wq). cbn [goal] in K2. destruct K2 as [(Ef & Ew & Ab2) | (Nf & l & kk & Ch & Lkk & K2)].
      * left. splits; auto. now apply absent_app.
      * right. split; [exact Nf |]. exists l, kk. split; [eapply chosen_r; [exact S2' | exact Sk0 | exact Ab | exact Ch] |]. split; [exact Lkk | now apply Er].
    + right. assert (Ef : fl = f1 /\ W' = W1) by (destruct f1; try (injection E as <- <-; auto); now destruct Nf). destruct Ef as [-> ->]. split; [exact Nf |].
      exists l, kk. split; [eapply chosen_l; [exact Ch | exact S3 | exact Nd] |]. split; [exact Lkk | exact K1].
  - cbn [goal] in *. apply bind_ok in E as ([v W1] & Ec1 & E). destruct (condition_ok f c lf s1 c1 st1 Sc W v W1 q p H1 R1 E0 Ec1 A1 Wq) as (q1 & _ & Wq1 & M). destruct (v =? 0).
    + eapply arrives_after; [exact (M _ Lf) |]. eapply arrives_after; [apply moves_go, Gf |]. apply Er. exact (Kb None q1 W1 fl W' (none_ok _ _) E Wq1).
    + eapply arrives_after; [exact M |]. exact (Ka None q1 W1 fl W' (none_ok _ _) E Wq1).
Qed.

(** * Loops *)
Lemma loop_exits sb st pe k q0 f1 W1 pcont pbrk pend : arrives sb pe k q0 f1 W1 -> g_ret sb = g_ret st -> lab (g_cont sb) pcont -> lab (g_brk sb) pbrk ->
  (forall q, go pbrk q pend q) -> (forall q, go pe q pcont q) ->
  match f1 with
  | Normal | Continue => exists q1, moves k q0 pcont q1 /\ i_world q1 = W1
  | Break => arrives st pend k q0 Normal W1
  | Return v => arrives st pend k q0 (Return v) W1
  | Seeking => False
  end.
Proof.
  intros (q' & A & B & D & E) Er Lc Lb Gb Gc. destruct f1.
  - exists q'. split; [| exact A]. split; [eapply go_trans; [exact E | apply Gc] | now split].
  - exists q'. splits; auto. eapply go_trans; [exact (E _ Lb) | apply Gb].
  - exists q'. split; [| exact A]. split; [exact (E _ Lc) | now split].
  - exists q'. rewrite <- Er. splits; auto.
  - exact E.
Qed.
Lemma while_step m c b f Sc st cs st' W fl W' q p x y :
  gen (S f) None (Srt SRT_WHILE_STMT x y [c; b]) st = Ok (cs, st') -> regular c = true -> regular_stmt Sc b = true -> env Sc st -> deep2 st -> seek_ok m (defaults b) st ->
  ex (S n) m (Srt SRT_WHILE_STMT x y [c; b]) Sc W = Ok (fl, W') ->
  at_ p cs -> i_world q = W -> goal m (case_literals b) (defaults b) st st' (p + length cs) p q fl W W'.
Proof.
  intros H R1 R2 En D Sk E A Wq. assert (H' := H). cbn [gen] in H. unfold gen_body in H. cbn [srt_type] in H. unfold gen_while_stmt, next_label in H.
  apply bind_ok in H as ([c1 st1] & H1 & H). cbv zeta in H. apply bind_ok in H as ([c2 st2] & H2 & H). injection H as <- <-.
  unfold append_child in H2. cbn [gchild srt_children nth_error deref bind] in H2.
  match type of H1 with append_jmp _ _ _ _ ?l ?s = _ => set (s1 := s) in *; set (le := l) in * end.
  match type of H2 with gen f None b (gset_brk _ (gset_cont ?l _)) = _ => set (lb := l) in * end.
  assert (S0 : stable st s1) by (subst s1 le lb; split; cbn; try reflexivity; lia). assert (E0 : env Sc s1) by exact (env_stable _ _ _ En S0).
  assert (S1 : stable st st1). { eapply stable_trans; [exact S0 | eapply (stable_jmp (gen f) (gen_stable f) (part [c]) 0%nat); [now apply kids_part1 | exact H1]]. }
  match type of H2 with gen f None b ?s = _ => set (sb := s) in * end.
  assert (Eb : env Sc sb) by (destruct (env_stable _ _ _ En S1); now split).
  assert (Db : deep2 sb) by exact (deep2_settles _ _ _ _ _ (settles_stable Sc _ _ En S1) D).
  assert (L0 := label_id_at C NL _ _ _ A). assert (G0 := fun q => go_label_id call P params C NL _ _ _ q A). assert (A1 := at_cons C NL _ _ _ A).
  apply code_at_app in A1 as [A1 A2]. apply code_at_app in A2 as [A2 A3]. assert (A4 := at_cons C NL _ _ _ A3). assert (Le := label_id_at C NL _ _ _ A4). assert (Ge := fun q => go_label_id call P params C NL _ _ _ q A4).
  cbn [length]. rewrite !app_length. cbn [length]. set (n2 := (S p + length c1)%nat) in *. set (n3 := (n2 + length c2)%nat) in *.
  assert (Pe : (p + S (length c1 + (length c2 + 2)) = S (S n3))%nat) by (subst n2 n3; lia).
  assert (Again : forall W1 q1 fl W', ex n None (Srt SRT_WHILE_STMT x y [c; b]) Sc W1 = Ok (fl, W') -> i_world q1 = W1 -> arrives st (S (S n3)) p q1 fl W').
  { intros W1 q1 fl1 W2 Ex Wq1. assert (Rw : regular_stmt Sc (Srt SRT_WHILE_STMT x y [c; b]) = true) by (cbn [regular_stmt]; now rewrite R1, R2).
    assert (K := X1 None _ _ _ _ _ _ _ _ _ _ _ H' Rw En D (none_ok _ _) Ex A Wq1). cbn [goal length] in K. rewrite !app_length in K. cbn [length] in K. rewrite Pe in K. exact K. }
  assert (Loop : forall k q0 f1 W1 fl W', arrives sb n3 k q0 f1 W1 ->
    match f1 with Normal | Continue => ex n None (Srt SRT_WHILE_STMT x y [c; b]) Sc W1 | Break => Ok (Normal, W1) | Return v => Ok (Return v, W1) | Seeking => Ok (Seeking, W1) end = Ok (fl, W') ->
    arrives st (S (S n3)) k q0 fl W').
  { intros k q0 f1 W1 fl1 W2 K E1. assert (X := loop_exits sb st _ _ _ _ _ p (S n3) (S (S n3)) K (st_ret _ _ S1) L0 Le Ge (fun q => go_jmp_to call P params C NL _ _ _ q _ A3 L0)).
    destruct f1; try (injection E1 as <- <-; exact X); try contradiction X; destruct X as (q1 & M & Wq1); (eapply arrives_after; [exact M | exact (Again _ _ _ _ E1 Wq1)]). }
  rewrite Pe. cbn [exec] in E. destruct m as [t |].
  - apply bind_ok in E as ([f1 W1] & Ex & E). destruct (Sk ltac:(discriminate)) as [Sk0 Nd]. assert (Skb : seek_ok (Some t) (defaults b) sb) by (intros _; split; [cbn; now rewrite (st_cases _ _ S1) | exact Nd]).
    assert (K := X1 (Some t) _ _ _ _ _ _ _ _ _ _ _ H2 R2 Eb Db Skb Ex A2 Wq). cbn [goal] in K |- *. destruct K as [(-> & -> & Ab) | (Nf & l & k & Ch & Lk & K)].
    + injection E as <- <-. now left.
    + right. assert (Kt := Loop _ _ _ _ _ _ K E). split; [exact (arrives_flow _ _ _ _ _ _ Kt) |]. exists l, k. split; [| split; [exact Lk | exact Kt]].
      eapply chosen_fields; [| | | exact Ch]; [symmetry; apply (st_cases _ _ S1) | reflexivity | reflexivity].
  - cbn [goal]. apply bind_ok in E as ([v W1] & Ec & E). eapply arrives_after; [apply moves_go, G0 |].
    destruct (condition_ok f c le s1 c1 st1 Sc W v W1 q (S p) H1 R1 E0 Ec A1 Wq) as (q1 & _ & Wq1 & M). destruct (v =? 0).
    + injection E as <- <-. eapply arrives_after; [exact (M _ Le) |]. eapply arrives_normal; [apply moves_go, Ge | exact Wq1].
    + eapply arrives_after; [exact M |]. fold n2. apply bind_ok in E as ([f1 W2] & Ex & E).
      assert (K := X1 None _ _ _ _ _ _ _ _ _ _ _ H2 R2 Eb Db (none_ok _ _) Ex A2 Wq1). cbn [goal] in K. exact (Loop _ _ _ _ _ _ K E).
Qed.
Lemma simple_flow s Sc W fl W' k : srt_type s = SRT_NULL_STMT \/ srt_type s = SRT_EXPR_STMT \/ srt_type s = SRT_DECL_LIST -> ex k None s Sc W = Ok (fl, W') -> fl = Normal.
Proof.
  destruct k as [| k]; [discriminate |]. destruct s as [t d pl ch]. cbn [srt_type exec]. intros [-> | [-> | ->]] E.
  - now injection E.
  - destruct ch as [| e [| ? ?]]; try discriminate E. apply bind_ok in E as ([v W1] & _ & E). now injection E.
  - apply bind_ok in E as (W1 & _ & E). now injection E.
Qed.
Lemma for_step : T_for (S n).
Proof.
  intros m c u b f Sc Sc2 st1 c1 st2 c2 st3 c3 st4 lb lc le W fl W' q p H1 H2 H3 Rc Rb Ab Ru Tu En D Sk E A Wq.
  assert (S1 : stable st1 st2).
  { destruct c as [ct cd cp cc]. destruct ct; try discriminate Rc.
    - cbn [srt_is srt_type] in H1. destruct cc as [| e [| ? ?]]; try discriminate Rc. eapply (stable_jmp (gen f) (gen_stable f) (part [e]) 0%nat); [now apply kids_part1 | exact H1].
    - injection H1 as _ <-. apply stable_refl. }
  set (sb := gset_brk le (gset_cont lc st2)) in *. set (su := gset_brk (g_brk st2) (gset_cont (g_cont st2) st3)) in *.
  assert (Eb : env Sc sb) by (destruct (env_stable _ _ _ En S1); now split).
  assert (Db : deep2 sb) by exact (deep2_settles _ _ _ _ _ (settles_stable Sc _ _ En S1) D).
  destruct (gen_settles _ _ _ _ _ _ Rb Eb Db H2) as (Sc2' & Ab' & S2). rewrite Ab in Ab'. injection Ab' as <-.
  assert (Eu : env Sc2 su) by (destruct (se_env _ _ _ _ _ S2); now split). assert (Du : deep2 su) by exact (deep2_settles _ _ _ _ _ S2 Db).
  destruct (gen_settles _ _ _ _ _ _ Ru Eu Du H3) as (Sc3 & _ & S3).
  assert (Lu : case_literals u = [] /\ defaults u = O) by (destruct u as [ut ud up uc]; destruct Tu as [Tu | Tu]; cbn in Tu; subst ut; split; reflexivity). destruct Lu as [Lu1 Lu2]. rewrite Lu1, Lu2 in S3.
  assert (A0 := A). cbn [app] in A. assert (L0 := label_id_at C NL _ _ _ A). assert (G0 := fun q => go_label_id call P params C NL _ _ _ q A). assert (A1 := at_cons C NL _ _ _ A).
  apply code_at_app in A1 as [A1 A2]. apply code_at_app in A2 as [A2 A3]. assert (Lc := label_id_at C NL _ _ _ A3). assert (Gc := fun q => go_label_id call P params C NL _ _ _ q A3).
  assert (A4 := at_cons C NL _ _ _ A3). apply code_at_app in A4 as [A4 A5]. assert (A6 := at_cons C NL _ _ _ A5). assert (Le := label_id_at C NL _ _ _ A6). assert (Ge := fun q => go_label_id call P params C NL _ _ _ q A6).
  set (n2 := (S p + length c1)%nat) in *. set (n3 := (n2 + length c2)%nat) in *. set (n4 := (S n3 + length c3)%nat) in *.
  set (pend := (p + length ([normal_label lb] ++ c1 ++ c2 ++ [normal_label lc] ++ c3 ++ [jmp_to lb; normal_label le]))%nat).
  assert (Pe : pend = S (S n4)) by (subst pend n4 n3 n2; rewrite !app_length; cbn [length]; lia).
  assert (Loop : forall k q0 f1 W1 fl W', arrives sb n3 k q0 f1 W1 ->
    match f1 with
    | Normal | Continue => do Sc' <- after b Sc; do (_, W) <- ex n None u Sc' W1; exec_for call P n None c u b Sc W
    | Break => Ok (Normal, W1) | Return v => Ok (Return v, W1) | Seeking => Ok (Seeking, W1)
    end = Ok (fl, W') -> arrives st1 pend k q0 fl W').
  { intros k q0 f1 W1 fl1 W2 K E1. rewrite <- Pe in Ge. assert (X := loop_exits sb st1 _ _ _ _ _ n3 (S n4) pend K (st_ret _ _ S1) Lc Le Ge (fun q => go_refl _ _ _ _ _ _ _)).
    assert (Y : forall q1, i_world q1 = W1 -> (do Sc' <- after b Sc; do (_, W) <- ex n None u Sc' W1; exec_for call P n None c u b Sc W) = Ok (fl1, W2) -> arrives st1 pend n3 q1 fl1 W2).
    { clear E1 X. intros q1 Wq1 E1. rewrite Ab in E1. cbn [bind] in E1. apply bind_ok in E1 as ([f2 W3] & Eu1 & E1).
      assert (f2 = Normal) by (eapply simple_flow; [| exact Eu1]; tauto). subst f2. assert (K2 := X1 None _ _ _ _ _ _ _ _ _ _ _ H3 Ru Eu Du (none_ok _ _) Eu1 A4 Wq1). cbn [goal] in K2.
      apply arrives_end in K2 as (q2 & M2 & Wq2). eapply arrives_after; [apply moves_go, Gc |]. eapply arrives_after; [exact M2 |].
      eapply arrives_after; [apply moves_go; exact (go_jmp_to call P params C NL _ _ _ _ _ A5 L0) |].
      exact (X3 None _ _ _ _ _ _ _ _ _ _ _ _ _ _ _ _ _ _ _ _ _ H1 H2 H3 Rc Rb Ab Ru Tu En D (none_ok _ _) E1 A0 Wq2). }
    destruct f1; try (injection E1 as <- <-; exact X); try contradiction X; destruct X as (q1 & M & Wq1); (eapply arrives_after; [exact M | exact (Y _ Wq1 E1)]). }
  cbn [exec_for] in E. apply bind_ok in E as ([gb W1] & Ec & E). destruct m as [t |].
  - injection Ec as <- <-. apply bind_ok in E as ([f1 W2] & Ex & E). destruct (Sk ltac:(discriminate)) as [Sk0 Nd]. assert (Skb : seek_ok (Some t) (defaults b) sb) by (intros _; split; [cbn; now rewrite (st_cases _ _ S1) | exact Nd]).
    assert (K := X1 (Some t) _ _ _ _ _ _ _ _ _ _ _ H2 Rb Eb Db Skb Ex A2 Wq). cbn [goal] in K |- *. destruct K as [(-> & -> & Ax) | (Nf & l & k & Ch & Lk & K)].
    + injection E as <- <-. now left.
    + right. assert (Kt := Loop _ _ _ _ _ _ K E). split; [exact (arrives_flow _ _ _ _ _ _ Kt) |]. exists l, k. split; [| split; [exact Lk | exact Kt]].
      rewrite <- (Nat.add_0_r (defaults b)). eapply chosen_l; [| exact S3 | lia]. eapply chosen_fields; [| | | exact Ch]; [symmetry; apply (st_cases _ _ S1) | reflexivity | reflexivity].
  - cbn [goal]. eapply arrives_after; [apply moves_go, G0 |].
    assert (Cond : exists q1, i_world q1 = W1 /\ if gb then moves (S p) q n2 q1 else moves (S p) q (S n4) q1).
    { destruct c as [ct cd cp cc]. destruct ct; try discriminate Rc.
      - cbn [srt_is srt_type] in H1. destruct cc as [| e [| ? ?]]; try discriminate Rc. apply bind_ok in Ec as ([v W2] & Ec & Eg). injection Eg as <- <-.
        destruct (condition_ok f e le st1 c1 st2 Sc W v W2 q (S p) H1 Rc En Ec A1 Wq) as (q1 & _ & Wq1 & M). exists q1. split; [exact Wq1 |]. destruct (v =? 0); [exact (M _ Le) | exact M].
      - injection Ec as <- <-. injection H1 as <- _. exists q. split; [exact Wq |]. subst n2. cbn [length]. rewrite Nat.add_0_r. apply moves_refl. }
    destruct Cond as (q1 & Wq1 & M). destruct gb.
    + eapply arrives_after; [exact M |]. apply bind_ok in E as ([f1 W2] & Ex & E).
      assert (K := X1 None _ _ _ _ _ _ _ _ _ _ _ H2 Rb Eb Db (none_ok _ _) Ex A2 Wq1). cbn [goal] in K. exact (Loop _ _ _ _ _ _ K E).
    + injection E as <- <-. eapply arrives_after; [exact M |]. fold pend. rewrite Pe. eapply arrives_normal; [apply moves_go, Ge | exact Wq1].
Qed.

(** * Switch *)
Lemma switch_step c b f Sc st cs st' W fl W' q p x y :
  gen_switch_stmt (gen f) (Srt SRT_SWITCH_STMT x y [c; b]) st = Ok (cs, st') -> regular c = true -> regular_stmt Sc b = true -> (defaults b <= 1)%nat -> forallb (case_fits c) (case_literals b) = true ->
  env Sc st -> deep2 st -> ex (S n) None (Srt SRT_SWITCH_STMT x y [c; b]) Sc W = Ok (fl, W') ->
  at_ p cs -> i_world q = W -> arrives st (p + length cs) p q fl W'.
Proof.
  intros H R1 R2 Nd Fit En D E A Wq. unfold gen_switch_stmt, next_label in H. apply bind_ok in H as ([[c1 r] st1] & H1 & H). cbv zeta in H. apply bind_ok in H as ([c2 st2] & H2 & H).
  apply bind_ok in H as (cases & Hc & H). injection H as <- _. apply deref_ok in Hc. fold (case_jump r) in A.
  unfold append_child in H2. cbn [gchild srt_children nth_error deref bind] in H2.
  cbn [exec] in E. apply bind_ok in E as ([v W1] & Ev & E). destruct (srt_dtype c) as [d |] eqn:Ed; [| discriminate E]. destruct (kind d) as [[u z] |] eqn:Ek; [| discriminate E].
  assert (S1 : stable st st1) by (eapply (stable_reg_ (gen f) (gen_stable f) (part [c]) 0%nat); [now apply kids_part1 | exact H1]).
  assert (Ng := eval_range call P PP _ _ _ _ _ _ _ _ Ev Ed Ek).
  match type of H2 with gen f None b (gset_brk ?l _) = _ => set (lb := l) in * end.
  match type of H2 with gen f None b ?s = _ => set (sb := s) in * end.
  assert (Eb : env Sc sb) by (destruct (env_stable _ _ _ En S1); now split).
  assert (Db : deep2 sb). { destruct (deep2_settles _ _ _ _ _ (settles_stable Sc _ _ En S1) D) as [D1 D2]. split; cbn; [exact D1 |]. clear -D2; lia. }
  destruct (gen_settles _ _ _ _ _ _ R2 Eb Db H2) as (Sc2 & _ & S2). assert (Cs := se_cases _ _ _ _ _ S2). cbn [sb gset_brk gset_default gset_cases g_cases] in Cs.
  destruct Cs as (new & Cs & Cl). rewrite Cs in Hc. injection Hc as <-. cbn [app] in *.
  change (map (fun p0 : Z * iliteral => inst3 IMMC_INST_JEQ (new_label_immcope_from_id (fst p0)) r (new_int_immcope (immcsuffix_get (iliteral_nbytes (snd p0))) (snd p0))) new) with (map (case_jump r) new) in *.
  apply code_at_app in A as [A1 A2]. apply code_at_app in A2 as [A2 A3]. assert (A4 := at_cons C NL _ _ _ A3). apply code_at_app in A4 as [A4 A5].
  assert (Le := label_id_at C NL _ _ _ A5). assert (Ge := fun q => go_label_id call P params C NL _ _ _ q A5).
  destruct (child_reg_ok call P params C NL PP (gen f) (gen_stable f) (sim f) (part [c]) 0%nat c st c1 r st1 Sc W v W1 q p d u z H1 eq_refl R1 En Ev Ed Ek A1 Wq) as (q1 & sf & rr & _ & Rn & Hs & _ & _).
  destruct (has_facts _ _ _ _ _ _ Hs) as (u' & z' & a & Ek' & Es & _ & Ea & El). rewrite Ek in Ek'. injection Ek' as <- <-.
  assert (Nb : forall x, In x new -> iliteral_nbytes (snd x) <= size_bytes z).
  { intros w I. apply (in_map snd) in I. rewrite Cl in I. rewrite forallb_forall in Fit. specialize (Fit _ I). unfold case_fits in Fit. rewrite Ed, Ek in Fit. now apply Z.leb_le. }
  assert (Tb := table_ok r q1 u z a v Es Ea El Ng new _ Nb A2).
  assert (Fd : existsb (fun k => interp u z k =? v) (case_constants b) = match find (at_literal u z v) new with Some _ => true | None => false end).
  { rewrite constants_literals, <- Cl, map_map. rewrite <- existsb_find. clear. induction new as [| w l IH]; [reflexivity |]. cbn. now rewrite IH. }
  rewrite Fd in E. clear Fd. assert (M1 := moves_runs _ _ _ _ _ _ Rn). assert (Wq1 : i_world q1 = W1) by apply Rn.
  set (n2 := (p + length c1 + length (map (case_jump r) new))%nat) in *. set (n3 := (S n2 + length c2)%nat) in *.
  assert (Pe : forall o : immc, (p + length (c1 ++ map (case_jump r) new ++ o :: c2 ++ [normal_label lb]) = S n3)%nat) by (intros o; subst n2 n3; rewrite !app_length; cbn [length]; rewrite !app_length; cbn [length]; lia).
  rewrite Pe. clear Pe. eapply arrives_after; [exact M1 |].
  (* the end of the body *)
  assert (Exit : forall k f1 W2, arrives sb n3 k q1 f1 W2 -> match f1 with Break | Seeking => Ok (Normal, W2) | _ => Ok (f1, W2) end = Ok (fl, W') -> arrives st (S n3) k q1 fl W').
  { intros k f1 W2 (q' & B1 & B2 & B3 & B4) Ef. destruct f1; injection Ef as <- <-; try contradiction B4; exists q'; (split; [exact B1 |]; split; [exact B2 |]; split; [exact B3 |]).
    - eapply go_trans; [exact B4 | apply Ge].
    - eapply go_trans; [exact (B4 _ Le) | apply Ge].
    - cbn [sb gset_brk gset_default gset_cases gset_label g_cont] in B4. rewrite (st_cont _ _ S1) in B4. exact B4.
    - cbn [sb gset_brk gset_default gset_cases gset_label g_ret] in B4. rewrite (st_ret _ _ S1) in B4. exact B4. }
  assert (Skb : forall t, seek_ok (Some t) (defaults b) sb) by (intros t _; split; [discriminate | exact Nd]).
  apply bind_ok in E as ([f1 W2] & Ex & E). assert (K := X1 (Some _) _ _ _ _ _ _ _ _ _ _ _ H2 R2 Eb Db (Skb _) Ex A4 Wq1). cbn [goal] in K.
  destruct (find (at_literal u z v) new) as [[l i] |] eqn:Ef.
  - destruct K as [(_ & _ & Ab) | (Nf & l' & k & Ch & Lk & K)].
    + exfalso. apply find_some in Ef as [I T]. unfold at_literal in T. cbn [snd] in T. apply Z.eqb_eq in T. apply (Ab i); [rewrite <- Cl; exact (in_map snd _ _ I) | exact T].
    + cbn [chosen] in Ch. destruct Ch as (c0 & new' & i' & C1 & C2 & C3). injection C1 as <-. rewrite Cs in C2. injection C2 as <-. rewrite Ef in C3. injection C3 as <- <-.
      eapply arrives_after; [apply moves_go; exact (Tb _ Lk) |]. exact (Exit _ _ _ K E).
  - eapply arrives_after; [apply moves_go; exact Tb |]. destruct (defaults b) as [| nd] eqn:En'.
    + assert (Dm := se_same _ _ _ _ _ S2 eq_refl). cbn [sb gset_brk gset_default g_default] in Dm. destruct K as [(-> & -> & _) | (_ & l' & k & [Nz _] & _)]; [| now destruct Nz].
      injection E as <- <-. rewrite Dm in A3. cbn in A3. eapply arrives_normal; [| exact Wq1]. apply moves_go. eapply go_trans; [exact (go_jmp_to call P params C NL _ _ _ _ _ A3 Le) | apply Ge].
    + assert (Dm := se_default _ _ _ _ _ S2 (Nat.neq_succ_0 _)). destruct K as [(_ & _ & Ab) | (_ & l' & k & [_ Dl] & Lk & K)]; [discriminate Ab |].
      replace (g_default st2 >? 0) with true in A3 by (symmetry; apply Z.gtb_lt; exact Dm). rewrite <- Dl in Lk. eapply arrives_after; [apply moves_go; exact (go_jmp_to call P params C NL _ _ _ _ _ A3 Lk) |].
      exact (Exit _ _ _ K E).
Qed.

(** * Every statement *)
Lemma exec_step : T_exec (S n).
Proof.
  intros m s f Sc st cs st' W fl W' q p H R En D Sk E A Wq. destruct f as [| f]; [discriminate H |]. assert (H0 := H). assert (E0 := E).
  destruct s as [t d pl ch]. cbn [gen] in H. unfold gen_body in H. cbn [srt_type srt_children] in H. cbn [exec] in E.
  assert (Idle : forall cl nd, cl = [] -> nd = O -> fl = Seeking -> W' = W -> m <> None -> goal m cl nd st st' (p + length cs) p q fl W W').
  { intros cl nd -> -> -> -> N. destruct m as [tt |]; [| now destruct N]. left. splits; auto. apply absent_nil. }
  destruct t; try discriminate R.
  - (* declarations *) destruct m as [tt |]; [injection E as <- <-; now apply Idle |]. apply bind_ok in E as (W1 & Ed & E). injection E as <- <-. cbn [regular_stmt] in R. rewrite regular_items in R. apply andb_prop in R as [R1 R].
    destruct (decls_ok _ _ _ _ _ _ _ _ _ _ H R1 R En D Ed A Wq) as (q' & M & Wq'). cbn [goal]. eapply arrives_normal; eassumption.
  - (* tag *) assert (cs = []). { unfold gen_tag_decl in H. apply bind_ok in H as (dd & _ & H). destruct dd; try discriminate H; try now injection H. apply bind_ok in H as (nm & _ & H). apply bind_ok in H as (tg & _ & H). now injection H. }
    subst cs. injection E as <- <-. destruct m as [tt |]; [now apply Idle |]. cbn [goal length]. rewrite Nat.add_0_r. eapply arrives_normal; [apply moves_refl | exact Wq].
  - (* declarator *) discriminate E.
  - (* block *) cbn [regular_stmt case_literals defaults] in *. rewrite regular_items in R. rewrite literals_items, defaults_items in *. unfold gin_scope in H. apply bind_ok in H as ([c1 st1] & H1 & H).
    apply bind_ok in H as (tg & _ & H). apply bind_ok in H as (sy & _ & H). injection H as <- <-.
    eapply goal_part; [exact (X2 m _ _ _ (entered st) _ _ _ _ _ _ _ H1 R (env_entered _ _ En) (deep2_entered _ D) Sk E A Wq) | reflexivity | reflexivity | reflexivity | reflexivity | reflexivity | reflexivity | intros q0; apply go_refl].
  - (* case *) destruct ch as [| [vt vd vp vc] [| b [| ? ?]]]; try discriminate R; destruct vp as [| | | i |]; try discriminate R. cbn [regular_stmt case_literals defaults] in *.
    unfold gen_case_stmt, next_label in H. cbn [gchild srt_children nth_error deref bind srt_iliteral srt_payload] in H. apply bind_ok in H as (cases & Hc & H). apply deref_ok in Hc. cbn in Hc.
    apply bind_ok in H as ([c1 st1] & H1 & H). injection H as <- <-. unfold append_child in H1. cbn [gchild srt_children nth_error deref bind] in H1.
    match type of H1 with gen f None b ?s = _ => set (sb := s) in * end.
    assert (Eb : env Sc sb) by (destruct En; now split). assert (Db : deep2 sb) by (destruct D; split; cbn; lia).
    assert (Lp := label_id_at C NL _ _ _ A). assert (Gp := fun q => go_label_id call P params C NL _ _ _ q A). assert (A1 := at_cons C NL _ _ _ A). cbn [length]. rewrite <- Nat.add_succ_comm.
    destruct (gen_settles _ _ _ _ _ _ R Eb Db H1) as (Sc2 & _ & S2). assert (Cs := se_cases _ _ _ _ _ S2). cbn [sb gset_cases g_cases] in Cs. destruct Cs as (new & Cs & Cl).
    assert (Kn : forall fl0 W0, ex n None b Sc W = Ok (fl0, W0) -> arrives st (S p + length c1) p q fl0 W0).
    { intros fl0 W0 Ex. eapply arrives_after; [apply moves_go, Gp |]. exact (X1 None _ _ _ _ _ _ _ _ _ _ _ H1 R Eb Db (none_ok _ _) Ex A1 Wq). }
    destruct m as [[u z v |] |]; [| | exact (Kn _ _ E)].
    + destruct (interp u z (lit_value i) =? v) eqn:Ei.
      * right. assert (K := Kn _ _ E). split; [exact (arrives_flow _ _ _ _ _ _ K) |]. exists (g_label st + 1), p. split; [| split; [exact Lp | exact K]].
        exists cases, ((g_label st + 1, i) :: new), i. split; [exact Hc |]. split; [rewrite Cs, <- app_assoc; reflexivity |]. cbn [find]. unfold at_literal at 1. cbn [snd]. now rewrite Ei.
      * assert (Skb : seek_ok (Some (At_case u z v)) (defaults b) sb) by (intros N; split; [discriminate | apply (Sk N)]).
        assert (K := X1 (Some _) _ _ _ _ _ _ _ _ _ _ _ H1 R Eb Db Skb E A1 Wq). cbn [goal] in K |- *. destruct K as [(-> & -> & Ab) | (Nf & l & k & Ch & Lk & K)].
        -- left. splits; auto. intros j [<- | I]; [now apply Z.eqb_neq | now apply Ab].
        -- right. split; [exact Nf |]. exists l, k. split; [| split; [exact Lk | exact K]]. destruct Ch as (c0 & nw & j & C1 & C2 & C3). injection C1 as <-. rewrite Cs in C2. injection C2 as C2. apply app_inv_head in C2. subst nw.
           exists cases, ((g_label st + 1, i) :: new), j. split; [exact Hc |]. split; [rewrite Cs, <- app_assoc; reflexivity |]. cbn [find]. unfold at_literal at 1. cbn [snd]. rewrite Ei. exact C3.
    + assert (Skb : seek_ok (Some At_default) (defaults b) sb) by (intros N; split; [discriminate | apply (Sk N)]).
      assert (K := X1 (Some _) _ _ _ _ _ _ _ _ _ _ _ H1 R Eb Db Skb E A1 Wq). exact K.
  - (* default *) destruct ch as [| b [| ? ?]]; try discriminate R. cbn [regular_stmt case_literals defaults] in *. rewrite app_nil_r, Nat.add_0_r in *. unfold gen_default_stmt, next_label in H. cbv zeta in H. cbn iota in H.
    apply bind_ok in H as ([c1 st1] & H1 & H). injection H as <- <-. unfold append_child in H1. cbn [gchild srt_children nth_error deref bind] in H1.
    match type of H1 with gen f None b ?s = _ => set (sb := s) in * end.
    assert (Eb : env Sc sb) by (destruct En; now split). assert (Db : deep2 sb) by (destruct D; split; cbn; lia).
    assert (Lp := label_id_at C NL _ _ _ A). assert (Gp := fun q => go_label_id call P params C NL _ _ _ q A). assert (A1 := at_cons C NL _ _ _ A). cbn [length]. rewrite <- Nat.add_succ_comm.
    destruct (gen_settles _ _ _ _ _ _ R Eb Db H1) as (Sc2 & _ & S2).
    assert (Kn : forall fl0 W0, ex n None b Sc W = Ok (fl0, W0) -> arrives st (S p + length c1) p q fl0 W0).
    { intros fl0 W0 Ex. eapply arrives_after; [apply moves_go, Gp |]. exact (X1 None _ _ _ _ _ _ _ _ _ _ _ H1 R Eb Db (none_ok _ _) Ex A1 Wq). }
    destruct m as [[u z v |] |]; [| | exact (Kn _ _ E)].
    + assert (Skb : seek_ok (Some (At_case u z v)) (defaults b) sb) by (intros N; split; [apply (Sk N) | destruct (Sk N); lia]).
      assert (K := X1 (Some _) _ _ _ _ _ _ _ _ _ _ _ H1 R Eb Db Skb E A1 Wq). exact K.
    + right. assert (K := Kn _ _ E). split; [exact (arrives_flow _ _ _ _ _ _ K) |]. exists (g_label st + 1), p. split; [| split; [exact Lp | exact K]].
      split; [discriminate |]. destruct (Sk ltac:(discriminate)) as [_ Nd]. rewrite (se_same _ _ _ _ _ S2) by lia. reflexivity.
  - (* continue *) injection H as <- <-. destruct m as [tt |]; injection E as <- <-; [now apply Idle |]. cbn [goal]. exists q. splits; auto. intros k Lk. exact (go_jmp_to call P params C NL _ _ _ _ _ A Lk).
  - (* break *) injection H as <- <-. destruct m as [tt |]; injection E as <- <-; [now apply Idle |]. cbn [goal]. exists q. splits; auto. intros k Lk. exact (go_jmp_to call P params C NL _ _ _ _ _ A Lk).
  - (* return *) unfold gen_return_stmt in H. apply bind_ok in H as ([c1 st1] & H1 & H). injection H as <- <-. cbn [srt_children] in H1. destruct ch as [| e [| ? ?]]; try discriminate R.
    + injection H1 as <- <-. destruct m as [tt |]; injection E as <- <-; [now apply Idle |]. cbn [goal]. exists q. splits; auto. intros k Lk. exact (go_jmp_to call P params C NL _ _ _ _ _ A Lk).
    + destruct m as [tt |]; [injection E as <- <-; now apply Idle |]. cbn [regular_stmt] in R. apply bind_ok in E as ([v W1] & Ev & E). destruct (srt_dtype e) as [de |] eqn:Ed; [| discriminate E]. destruct (kind de) as [[u z] |] eqn:Ek; [| discriminate E]. injection E as <- <-.
      apply bind_ok in H1 as ([[c2 o] st2] & H1 & H2). injection H2 as <- <-. rewrite <- app_assoc in A. apply code_at_app in A as [A1 A2]. cbn [app] in A2.
      destruct (child_int_ok call P params C NL PP (gen f) (gen_stable f) (sim f) (part [e]) 0%nat e st c2 o st2 Sc W v W1 q p de u z H1 eq_refl R En Ev Ed Ek A1 Wq) as (q1 & (G1 & Wq1 & Ka & Kr & _) & Hs & S1 & _).
      destruct (has_facts _ _ _ _ _ _ Hs) as (u' & z' & a & Ek' & Es & _ & Ea & El). rewrite Ek in Ek'. injection Ek' as <- <-.
      cbn [goal]. exists (set_ret (Some (z, low z v)) q1). split; [exact Wq1 |]. split; [exact Ka |]. split; [reflexivity |]. intros k Lk. rewrite <- (st_ret _ _ S1) in Lk.
      eapply go_trans; [exact G1 |]. eapply go_trans; [eapply go_next; [exact NL | exact A2 |] |].
      * cbn [istep]. rewrite Es, Ea, El. reflexivity.
      * exact (go_jmp_to call P params C NL _ _ _ _ _ (at_cons C NL _ _ _ A2) Lk).
  - (* expression *) destruct ch as [| e [| ? ?]]; try discriminate R. cbn [regular_stmt] in R. destruct m as [tt |]; [injection E as <- <-; now apply Idle |]. apply bind_ok in E as ([v W1] & Ev & E). injection E as <- <-.
    unfold gen_expression_stmt, append_child in H. cbn [gchild srt_children nth_error deref bind] in H.
    assert (Eu : env Sc (update_void_expr_register st)) by (destruct En; now split).
    destruct (sim f e _ _ _ Sc W v W1 q p H R Eu Ev A Wq) as (q' & Rn & _). cbn [goal]. eapply arrives_normal; [eapply moves_runs; exact Rn | apply Rn].
  - (* null *) injection H as <- <-. injection E as <- <-. destruct m as [tt |]; [now apply Idle |]. cbn [goal length]. rewrite Nat.add_0_r. eapply arrives_normal; [apply moves_refl | exact Wq].
  - (* if *) unfold gen_if_else_stmt in H. destruct ch as [| c [| a [| b [| ? ?]]]]; try discriminate R; cbn [srt_children length Nat.eqb] in H.
    + cbn [regular_stmt] in R. apply andb_prop in R as [R1 R2]. destruct (expr_plain _ R1) as [L1 L2]. cbn [case_literals defaults] in *. rewrite L1, L2, app_nil_r, Nat.add_0_r in *. cbn [app plus] in *.
      eapply if_step; eassumption.
    + cbn [regular_stmt] in R. apply andb_prop in R as [R R3]. apply andb_prop in R as [R1 R2]. destruct (expr_plain _ R1) as [L1 L2]. cbn [case_literals defaults] in *. rewrite L1, L2, app_nil_r, Nat.add_0_r in *. cbn [app plus] in *.
      apply bind_ok in E as (Sc1 & Ea & E). rewrite Ea in R3. eapply if_else_step; eassumption.
  - (* switch *) destruct ch as [| c [| b [| ? ?]]]; try discriminate R. cbn [regular_stmt] in R. apply andb_prop in R as [R F]. apply andb_prop in R as [R Nd]. apply andb_prop in R as [R1 R2]. apply Nat.leb_le in Nd.
    destruct m as [tt |]; [injection E as <- <-; now apply Idle |]. cbn [goal]. eapply switch_step; eassumption.
  - (* while *) destruct ch as [| c [| b [| ? ?]]]; try discriminate R. cbn [regular_stmt] in R. apply andb_prop in R as [R1 R2]. destruct (expr_plain _ R1) as [L1 L2].
    cbn [case_literals defaults] in *. rewrite L1, L2, app_nil_r, Nat.add_0_r in *. cbn [app plus] in *. eapply while_step; eassumption.
  - (* for *) destruct ch as [| [it id ip ic] ch]; [discriminate R |]. destruct ch as [| c ch]; [destruct it; discriminate R |].
    destruct ch as [| [ut ud up uc] ch]; [destruct it; discriminate R |]. destruct ch as [| b ch]; [destruct it; try discriminate R; destruct ut; discriminate R |].
    destruct ch as [| ? ?]; [| destruct it; try discriminate R; destruct ut; discriminate R].
    set (i := Srt it id ip ic) in *. set (u := Srt ut ud up uc) in *.
    assert (R' : exists Sc1 Sc2, regular_stmt (enter Sc) i = true /\ after i (enter Sc) = Ok Sc1 /\ regular_stmt Sc1 b = true /\ after b Sc1 = Ok Sc2 /\ regular_stmt Sc2 u = true
      /\ (match c with Srt SRT_EXPR_STMT _ _ [e] => regular e | Srt SRT_NULL_STMT _ _ _ => true | _ => false end) = true
      /\ case_literals i = [] /\ case_literals u = [] /\ defaults i = O /\ defaults u = O /\ (srt_type u = SRT_NULL_STMT \/ srt_type u = SRT_EXPR_STMT)
      /\ (srt_type i = SRT_NULL_STMT \/ srt_type i = SRT_EXPR_STMT \/ srt_type i = SRT_DECL_LIST)).
    { clear -R. cbn [regular_stmt] in R. subst i u. destruct it; try discriminate R; destruct ut; try discriminate R;
      apply andb_prop in R as [R R3]; apply andb_prop in R as [R1 R2]; destruct (after _ (enter Sc)) as [Sc1 | | | |] eqn:Ea; try discriminate R3; apply andb_prop in R3 as [R3 R4];
      destruct (after b Sc1) as [Sc2 | | | |] eqn:Eb; try discriminate R4; exists Sc1, Sc2; splits; auto. }
    clear R. destruct R' as (Sc1 & Sc2 & Ri & Ai & Rb & Ab & Ru & Rc & L1 & L2 & L3 & L4 & Tu & Ti).
    assert (Lc : case_literals c = [] /\ defaults c = O). { destruct c as [ct cd cp cc]. destruct ct; try discriminate Rc; auto. } destruct Lc as [L5 L6].
    cbn [case_literals defaults] in *. fold i u in Sk. rewrite L1, L2, L3, L4, L5, L6, app_nil_r, Nat.add_0_r in *. cbn [app plus] in *.
    unfold gin_scope in H. apply bind_ok in H as ([cs1 st9] & H9 & H). apply bind_ok in H as (tg & _ & H). apply bind_ok in H as (sy & _ & H). injection H as <- <-.
    assert (De := deep2_entered _ D). assert (Ee := env_entered _ _ En).
    eapply goal_part; [| | | | | reflexivity | reflexivity | intros q0; apply go_refl]; [instantiate (1 := entered st) | reflexivity ..].
    assert (Ske : seek_ok m (defaults b) (entered st)) by exact Sk. clear Sk. fold (entered st) in H9. generalize dependent (entered st). intros st0 H9 De Ee Sk. clear En D.
    unfold gen_for_stmt, next_label in H9. unfold append_child in H9. cbn [gchild srt_children nth_error deref bind] in H9.
    apply bind_ok in H9 as ([c0 st1] & G0 & H). apply bind_ok in H as ([c1 st2] & G1 & H). cbv zeta in H. apply bind_ok in H as ([c2 st3] & G2 & H). apply bind_ok in H as ([c3 st4] & G3 & H). injection H as <- <-.
    match type of G0 with gen f None i ?s = _ => set (si := s) in * end.
    assert (S0 : stable st0 si) by (split; cbn; try reflexivity; lia). assert (Ei : env (enter Sc) si) by exact (env_stable _ _ _ Ee S0). assert (Di : deep2 si) by (destruct De; split; cbn; lia).
    destruct (gen_settles _ _ _ _ _ _ Ri Ei Di G0) as (Sc1' & Ai' & S1). rewrite Ai in Ai', E. injection Ai' as <-. rewrite L1, L3 in S1. cbn [bind] in E.
    assert (E1 := se_env _ _ _ _ _ S1). assert (D1 := deep2_settles _ _ _ _ _ S1 Di).
    assert (Sp : settles [] 0 Sc1 st0 st1) by (eapply (settles_l f (gen_settles f)); eassumption).
    assert (Cs1 : g_cases st1 = g_cases st0). { assert (Cs := se_cases _ _ _ _ _ Sp). destruct (g_cases st0) as [c9 |]; [| apply Cs]. destruct Cs as (nw & -> & Nw). apply map_eq_nil in Nw. subst nw. now rewrite app_nil_r. }
    apply code_at_app in A as [A0 A1]. rewrite app_length, Nat.add_assoc. apply bind_ok in E as ([f0 W1] & Ex & E).
    assert (Sk1 : seek_ok m (defaults b) st1) by (intros N; destruct (Sk N); split; [now rewrite Cs1 | assumption]).
    assert (Go : forall q1, i_world q1 = W1 -> goal m (case_literals b) (defaults b) st0 st4 (p + length c0 + length ([normal_label (g_label st0 + 1)] ++ c1 ++ c2 ++ [normal_label (g_label st0 + 1 + 1)] ++ c3 ++ [jmp_to (g_label st0 + 1); normal_label (g_label st0 + 1 + 1 + 1)])) (p + length c0) q1 fl W1 W').
    { intros q1 Wq1. eapply goal_part; [exact (X3 m _ _ _ _ _ _ _ _ _ _ _ _ _ _ _ _ _ _ _ _ _ G1 G2 G3 Rc Rb Ab Ru Tu E1 D1 Sk1 E A1 Wq1) | apply Sp | apply Sp | apply Sp | exact Cs1 | reflexivity | reflexivity | intros q0; apply go_refl]. }
    destruct m as [tt |].
    + injection Ex as <- <-. exact (Go q Wq).
    + assert (f0 = Normal) by (eapply simple_flow; [| exact Ex]; exact Ti). subst f0. assert (K := X1 None _ _ _ _ _ _ _ _ _ _ _ G0 Ri Ei Di (none_ok _ _) Ex A0 Wq). cbn [goal] in K.
      apply arrives_end in K as (q1 & M & Wq1). cbn [goal]. eapply arrives_after; [exact M |]. exact (Go q1 Wq1).
Qed.
End Step.

Theorem exec_ok : forall n, T_exec n /\ T_list n /\ T_for n.
Proof.
  induction n as [| n (X1 & X2 & X3)].
  - split; [| split]; intros; discriminate.
  - split; [now apply exec_step | split; [now apply list_step | now apply for_step]].
Qed.
End Sim.
